(* The Poseidon constants of starky/src/poseidon_bn128_constants.rs (c, m) and
   starky/src/poseidon_bn128_constants_opt.rs (C, M, P, S) for the state widths 13 to 15, as the
   integers their hexadecimal strings denote. *)
From Verif Require Import Base.
Open Scope Z_scope.

(* poseidon_bn128_constants.rs:5375-6323 *)
Definition bn_c13 : list Z := [0x1373c771cdf15121a224f330d84b6688ef9fe0038a3bc26a28e3196578a0000d;
 0x29f9fbda3c999836017f76e121af3aca5ce78bb48fa867a6a95e5b9db387533a;
 0x1c7eb5116a20075c169b786d9dc86a24ee7a2525b565bbc262209a8cda490528;
 0x21a549eb554f0f859f61d68f1b6bbe9aa3449a6238546bbdf2a1c308c9cc52e6;
 0xb53fff701347d1b9df98b46175800e0d3250ac6d4a1afa71a349ed195873508;
 0x2129ac4742415c020db2473999b34dfdbabba3cad4713718f95e6346e1583b7;
 0x1d28f305e8b0ec88da37c8251b0c8d230b68bea9401a15f5124d64c5454bc29;
 0x1ed301e02e3fc930999fce6d3744c23596700c03720705939d61cee451faff93;
 0x2edb1832966e34eaeee0903858afedb13dbba9f7c802c83ee628530d0e26ae1b;
 0x123daaddc930c65fc67bc77ca8bf4123fe81fbd0501e8f89ac31a698756d87d9;
 0x2bcc36362c90210acf67d5fe21d53104e9d5478d057141d3b17259fed8e4a8fc;
 0x1fa928cab5938207e898e61d99c7d616269144f7900815b17095f7ff76e3c9d5;
 0x29c2f1cfa72a0fb8f53a631e84cfdf5cc18fb426c254f5a905fd3e831fc7c837;
 0x17a732ad13f1b6a1aff42664c390b9017c418210273c7d048bf300aa7be9c65e;
 0xc18c6e773ea7eb43b98cac66722de9d135484c6cfa084c2a512ea1977a60268;
 0x1954c5c238d8a30c9f1ba4fb963e091acacbc3ed7b498dcf6600f530b6545e49;
 0x2591ab77813f34d8a0e0b7b0caacd6ef179dd314597cfde78b74869d74dad600;
 0x179db9fb8aab4619e67a6a8667c7b4b32f40ed848d8e33b756c9a794b5932fec;
 0x305d014214b4107c11fd83870458738e04fb8dc4e747077c0e462f51d1c59575;
 0x298723d70694578fe291635898762bcebca9ac4563b12b90e1fef4f76f9b7bbf;
 0x2b336e9b38b504c412a683309ae8024d0802a45d06e649a5e53719aab29a913;
 0x8687e699b527b1341f9ab7f17113d9e0eca0443251ef35f0a905704f155d339;
 0xa5ff9f7d45b3ca9b79b18d79db4307ee7c4ac4ddea9a8da1a36ab3be057c9bd;
 0x20e44747601319223535f4566cdc86ca54324c5657265353add7dbf4f2504656;
 0x254dc31e3afd304e85c9ef8fabc1a1cd1a4c7b9bc860ce9ce436c33a202a96d;
 0x11cd6492dc520c57dc3e55e33f8a387cbc1eda3a1490b6a4bcebd94e0742cbf0;
 0x2f98b10265a30475bb0348d4a787cfb6603119a1a4fe15c36dc986cb4f8c7cf1;
 0x153d814e4e55ad782bccef998c974250c073465ef7077550246f69c58ba989fa;
 0x4db11a9ea014aed2ed08e46c06306e87131744d65d289e59964f930d13b9ed6;
 0xe9a9a6dee9339f5de7135ca3222fd2230c3f3f3e01eedd3633e606aa0b1a1dd;
 0xe6d8e464bfcdb8f9ee60fb1f2f33079911e7a073856faee78398811cb976757;
 0x237fe2151186437a1cf1901106ae25aac16e9846f9d41fd68796d7a28ed728a;
 0x1e3d3d1eea8b7615a9897ef86229776cbda1d848aa5a680935825e73f1f5aa84;
 0x9724144c7a4aec0ddcbba9f9a9e9ec9bcdf688ca3f5870f1ee6e174179fb440;
 0x11139987e1147467d927db25eec88f0c1e0232e3486cd9a014be3fc8cf066129;
 0x1524e5becef72c2697e34c8055ec81974af04912d7ca1df83e65a080ea96269d;
 0x64d1299b11b1a6bb50b3e5ac7592a054fd72380afa4c092ce28ec8c31e80c99;
 0x12d9fbd27be24eb620b7743cfc5296567cb4804091a1803dd977788a9f588e4c;
 0x88d226e69e1b273eba31d4da8576085cc0fd0daae1546bef30079f84b651bc3;
 0x15126de187213ebb40dce5da1ab3adc58a3139920c19497c3f47119baa50670f;
 0x1169c1fe739bc528eac16a5263d22dee4a66a9961f01eef51684ef792126859d;
 0x2a7006c683094f6f84d122ad5774ad2f0c9fa80b6c963e2fa3a1ead3d74f3aaa;
 0x2607c22ca9aefe8cdea30fff05b05c4fec7ed8e9302d0f950cd9405ae94bb258;
 0x24530b086f441e3834f36c2b11ebc0a809dbdfdd8317a384465931c1c58c2638;
 0x6354e02d8c4de97a811481e390c26e5c93fc29a2a1a84824ace50467c9aa652;
 0x1f6fbab3e2ea2791c94f5ff43ca128943640692151b295dcf42cac0d8ab0757b;
 0x1747ca45b7282ef09928f7649f5cc8337537e2834e6c8905c1ae69008df70bfd;
 0x3efd4b9b4d41974e36884e3b1055a705ab4ec3fb1c8e76f82e035991200a633;
 0x2d9cd189d47b0b1b32c9a2412db6a59b1b475dc91ebd2d685c96b349c220b4b6;
 0x1c9982650aacd1a449ed04605bd65fd75ce393d424c9751814fd03541b4756b;
 0x243ffeaa82f3c038481e84b728b459eb221359851ae226c1c6d6a7ba1b1ffdb4;
 0x650daafd003bed0bed22bada31bea709491a83b55caff300339885481dc65e8;
 0x16d20c619674228b767fc625aac650baae2d0cd15c1f9d0164547082b3099df9;
 0x5ee8d5d661d39f15be923fa2944ef2b29da3f4831eb1e4f2f1c1230cf5d149b;
 0x23ebc8fc40feec52402e18f881eacebfe441de256273ffe551eee0ed7e4dad73;
 0x292bb59e7a6c70116ad7b7e11951c3b8b6b1b130f35bc6c428a9533c003a70e8;
 0x133d42d9f83d054db43e4354d1bd7ec3a89b8cf94703fdc12950d9f3c21a63ea;
 0x1fd6bed0d347a88e46fcb42f3397aeb0cf07a8e71467e6110b94c90f9323745e;
 0x23b091a0c1f0822c8156747a907c8a79b8c1fcab4a3420622511c867f79d776;
 0x75fc73bcb6ea2c158e721a9aa6c3f1c4d139b5cf1b752c87d96f44420512eef;
 0x17e3bcba0b2d22d27cdabbcb360c8020e56c01c079cb550e3f169fb2a9a451b;
 0x194299f0fb7951a80ace994a3ea3123e6e0cb72d5c46fee296ea6f8e73ad1882;
 0x6f0e522924a4cf25d9011d477a2746c77e8cc77150b87b42c8c118f1473b514;
 0xcc91c18c5fee1b579da0900f04e5a6c36d65f0fc977993203d4b311cbf5d0ef;
 0x1abd94c2a5b28e661310e3315b67adbf563fdb06926b6dc4e4d93d04165ed309;
 0x24142c9001a7bfff363f3f67f4a2bd128efb72e846e3ba10344ffae655e56f2e;
 0x1931b9d4523cb3f78bfbcf6b1dde68c46012aa747dcd7a3af382ed781252e478;
 0x2ce3bd1161a012a572836e97ea8f0694f93c952d11fd11a8e8f9a49dff9df85e;
 0x15a09fa373041c239e8149657c98b4f3aa30d192c87c03cce47a2b2453d5a48c;
 0xb1dc38f74a71b7d909e5ce7fe5601768738417a5786898da316f528998af665;
 0x13ea22f9316bb5694d69024fee2cb95ee643c545496df0bd1c25490e34d0f1f6;
 0x1ffe58bd14b12b9fafdc365e7081a395a9614e022f7f4d7bc7dfc974b0aad71d;
 0x11bab1f186cda03c01e85dfedd40bc5d406e24ca58b305a6257b7c772bce2447;
 0x14007eb2d1440b7b8e0936c79672051ae6f5ca9fd4055b417f00c9632abe30ec;
 0x1037f0193d40f682ed9623a772de679f0431873e8e0b5004a1f242ac963fee72;
 0x20b18be760e87d7c6149b810fe496abf77a0f840ee57ebcfe1cf77236338fabd;
 0x1de835e6623f426711276dde7a2a1c20a61b910bf6fdcd33b34368cf96e95a2d;
 0x211c38050b07c4a747c5dc44939ce1f76b0820c4b5f07a47e8b10b05e7a99d4f;
 0x372fc2cd832015e119c2a12d3622fd7212a4887e4bd1275c205fae2e17f452e;
 0x1438dee77b0825cbef6b0f412e9a7277d4e5dc161ce9816f020ae4d1410d0be;
 0x7f2ece16c12c9757aaa60953dedd709c513f6f8337e22968a65cd50b0d99211;
 0xc57a69d09575d8e1f525e012d73729bc89649b5bc4260d73e4324848452510f;
 0x1c8d0a9db77f14f835309f2d3c6821b9921a366468a0d15efb308f57ce658513;
 0x169da093e7a5b39bf088277072d4fd58d80215b69ca262cc2d12a5eb30c00b8e;
 0x2f3034ab20af0fd83ac60b0236696866f8250bf2d765b10d6da2e3ef1e2d787b;
 0xe31b4fa627dd0e5f2dacaf105865a77781543620f3eb28ff7dc102656583073;
 0x2a9007126f67e1631d29512f433a6a0bcb8c95a36be164be5fa86be9feb8a594;
 0x80af40215b6078be84fb47acd79b59eccefe8a92b6a6033e772c22183bdc0d7;
 0xde8a234d208861ebb05ab3812e5c4fdd39e7ada9047c926efb88e1cbf2ebb52;
 0x22aaf24c0f1e3f941606a527376ddff91cc6b0adc062efe641f96e3005af3659;
 0x1f4f5b7709cf584bf0704861e94234cd8909851e3b212c64a0b3051ffaa2eb66;
 0x1296d46427eb2e38816a5e817133565d4f6ded4eb72b5d0ab559bd57667aa2f1;
 0x3fa86767c1fa2d7b4eb45b4a255b1298c55d045c69627f5d8adeb9683a129be;
 0x8022805abe02bad75306d226478e49d25facfbcaff649364352d4a88d928f38;
 0x1d58b33a2a9638ba180cd36029308a2e8be7ed273441d5d280456b2d3b8d8a0a;
 0x1f8cae7359c800f307a625b66ff2154c6c4364e85ca8e01911a634aa4ad657a7;
 0x39ca66f2fd7f80c17171a4ed8c82ae3c3bf0462d1451a9f5a58748958717bf2;
 0x74f7e13e74f2b7b316a3839956f4bf2541eaf2497653b6db1a9335da6c882dc;
 0x1f63cf1148c0efa656d5af850cd02a0d879ad7886cfcafe1ec55fe6bf4ad5cb0;
 0x1d9bf6ebc0464b9cb47583494a27b45763d7a62296ecca17efbea97356a73e23;
 0x76492874603b021892e5c2a03c706979be557fd4ee2e040792da16e28bc8ac6;
 0x7012338c5c626e267f76d428388940b900e0085c785166d27b7ec8960825238;
 0x9c29059e2013d0ce2cce0b24e3946765a95f040526c3c9224d2801a1bd4ff81;
 0x1f2de0350981ab374c9ba7ea1a69d81b287c2c9fad9095205ab21582ba0ea641;
 0xc52bab86e259a3bd8c061197028873b801b4c56ea8036ff95a67f434f3b7425;
 0x2f262e06178670c4ff861f670c7b51ef9e629213a6422032dfcb26760426a3e5;
 0x2af6aa2335400114453435e97010dbe70786a691a5d972ea211af12d4ce384c2;
 0x18cad65567f0322fd6f0626cb5caf567a46faa122d30c37380b54b6b5d01ab3e;
 0x145667e19067dddbd4269db6ca76d0c0d7e57f1945eea251f8acad86e849858e;
 0x2ebaa7e10194cd2957a13d1a358fc93ce54d8bd3dbed06e215b2bf2623b21847;
 0x28b85b95982ebc76c4762654f932db031ffd5376a1299b45ba805c4b4e0754d0;
 0x17cb0c473841ed2eb1f1a1ddf021b74f73f34172e065b24c9684dd3cffc340a5;
 0x24f46ecb8583ca97c5b018736d227fde7c39d1978ca63c97e39ea06588db07b0;
 0x274b5c409ea9809bf7f04a7cb5ee4d322d1a95a86c1d0961b15d4a24a7185dec;
 0x2cba8960d543fd9846377348ea55b7d042b3348524d76101836646627ded4477;
 0x27f02e416dd70b44907f97d7ecb945cebbab1d4dc73c8a18c00cfb1fb2469988;
 0x2ab21865691229fa440b6528ad7c39c41693b1b939ec09dbeedf26f37724a151;
 0x2910da916e438c04837ce799b81b0e9792c1ead008d92fcf9ca867b165f5e275;
 0xf03ce98366111de12ccbe5a1121c9f8309519a7e52300e397d9d90368207afa;
 0x236b0371e7ce97213d8aeb6683f02f44044a1fedaca3d151edd3121a44fa19e1;
 0x2c50cab6a867b1e801a36ffbcee521b83afbc580be1897dc4c5b6cd5df3b350f;
 0xcbf8c8dccd837d1dbac09151e4ee378f93e8548d923d8a49e6df81b9c3f277c;
 0x1d18a9fb001245c1a6a17f7cd24ed820b0dbede9ef479830d0ae483346e54be4;
 0x1476bb1c30603f7f94493d2e016bee63283b2a7efd999d59090c434c88837ed3;
 0x24d565fb578dd252f56a7a0d5d8d4d1c5d727d5234ac4bd9a9600455ccb5ad58;
 0xc68e7e9567deab8e8b95051a7788443438e0f5fbe0d7de436fa3cfad596369e;
 0x1ce5b25a539d3e1c0c5dcd1ebd0f4ee716840d44c3ae109a669eacddc4a35611;
 0x2d3210e66407f6c343eef28fbb7bae59f626db73bec5d9ff06ba9d43ba84e208;
 0x118ab3427747ef1a45a609cdf7e7102afae6d411392de254d3b72f1d450ad2f9;
 0xb45c70d2856c7e5b3fd6f8f0fde1a7fcb14a2acce4fdddfe50b39fb97423b5d;
 0x2ce7c2bad5608153c5d1e40ee17cc33ef1783d9b1cf0153e4a2918894faa46b3;
 0x854bd46fef6c2e6480b3b0998215f55f4e090a3e99e03a5a64742f98dce5af8;
 0x15c77e7600df711f58f2f0fa88b7d435770104a196076b74e6f5d7a96c8e693d;
 0x2a0a3ee38edfda0761bb9b3017924d09309478b167a6099e54d2f5a221724ed8;
 0xe8c14fd43b9ace2b7e98e1ac65659cd37f8de94198aee42f5be6659765a4ad9;
 0x163276e836c4ee6ab9466613c61fc6924faed9cfdc0a458bc95b59ff381e21e4;
 0x23d1584a5cb0b74c00071c687cddacb4a632b104de4159c0e00c5352d078ccfd;
 0x15685bc903a1c4c031ce016c093860a2ae2aefabfa47d1f290eb5a628522f5a0;
 0x1b33f50e90e90b5dcacb1a158641d63311972457efd9485834b83f0fa04260a5;
 0x28380c55cd667894c638647e6aa14b857d3f31c0315ab315d6a9457304f21dc1;
 0x29d108541f3b451943eacf723acc6886aab18c8e4485808f4b1e55a73cda6246;
 0x1d4c2cba59d5551bc3fe976ae5ac09e5b728d305bbda193afc259c99932f95f0;
 0x16a8d69970561003650337aabe5e4e5ddfa4b71c1b9db8cc7b82780359c70d33;
 0x289e50c1f0b0bddedc98b7e8a35be62f14f56dd5d7345bfa6ad0d2e43bf92e43;
 0xa41765a5352ecbe0b327ca7827a9fc6495e7b6c142dffca003f58383c6dff65;
 0x24c0d42378a0c8a613c0402ede6de9bd3527ef2b82ceea6006e7f71bf77666d4;
 0x277cae5057d5b5ace72c47e60cc4b8e113ed706b5d91ea4fb9b13fd19fa4d47b;
 0xa303567cbf94968090438a23e2fd2ccb8a7f71622bffdc1c1684e8958c3765d;
 0x1f7ed8c267a29a69d9450dc74afaf768a884e42c37e0e6fb4d4385cb027ab949;
 0x86c4b8301656b6acb8a735019556a278a60313040f236e815fd22e8473bbc65;
 0x27b63fbc29594760dbffef8d30fef49afefddf1504bd487fd6282d9e3d6e3337;
 0xb9c0a45621716f9849af8a3c9075b7ab839c282881ede8b0e5a9e723766d70;
 0x1b5ba2fbced922c3796d57b4962fd253f5ab6e2b91355d2c0a8d226040652395;
 0x2e1ad57ebdf932603f51bb1ddab204dc026e13dc4986791f54c4030cac6f1938;
 0x2f865e1df1169a35771f617046485f8fb17afde3b2b97d1eafafbd1862ac6e16;
 0x62ace5be380c5e4361b209b80befdcad052146b869d50dd58085ea65d9d141;
 0x2dbcbb1b4ea08e3769844bed522b92ee01fecd5b3f2379c24b45d59842536337;
 0x1ce3d90034dfda11e9bf7d92b65f810483c48b26cca092747b4ceaf07c7ba847;
 0x86583a59497474b0d1eb0c3cec4f1df596aef3db638fee1895d3f5a5845252c;
 0x2b984d5c91b7b320f7f297bddd68789ef6ca88cfed3957d2c5e8a6fc0e78d76c;
 0x8edeaf9ddcd25a730751b32cd43c630da831101eb310399356e4b52df11fc28;
 0x28df39cc7f96672569cf86ee373623da9f1c58ff1fd66d930cc234a7e959c41f;
 0x15af6a84c6b142eacc58137fb371799bf3aff1780455c32d8d3598cfb91b24df;
 0x19cf0dca22781a9bd56173491ebebd18ec8446d6717563bd3a80cc52a1be6961;
 0x4e0e0b52923bff8b67b1210f23a11277337996ce50180eba97775618b003558;
 0x15ab0a5fda2b5191cc2bd0485a30c2e75b540bc397c3436d2e64b6a2da9ac49e;
 0x18e83f7a6bbf457fde7b8ba4fc53ad4810ee071941969f87b62b6c6ea8f55ef;
 0x171b0539cf1d6e8519789fbeb31292b6be60c3f93e2b45309ab559a854e63355;
 0x2ea76a14e0d177f355f681c822de2b37142ae6e93712492265d2992473da1021;
 0x144292627b643b5180c710eba6d74a076cda5d3ff836576e983da9b7d93564b3;
 0x7ad2bf37ce1ef4a8fac5b44305f1a5d2127d8c6ff173ec42f0e421ea53f7c1c;
 0x55514dc9b01480ae57ba24fd5dd12f229bb5597edcffca145156af3324b0d84;
 0xb05a45bb9377e1597507fde0dbbfa2d642f6c358e233ecb8ed7e575ec6a34a5;
 0x198b369f024a0561af9ad7a0cf7ac107042b42f9301bafe2e1b4c2ad9e46fa86;
 0x253f82b21addaa86724677bad4a4c464ac5ec75c78755fbec6f46d9ef73c2f04;
 0xef256e9d5e9e3da1f56d7d2115fdf10ed7674e3cecbcc9cdbcb46c7cfbc7429;
 0x2d8926570b080260164e6b66afafbad3d925a464e995d7a1d02f90c7264f7b38;
 0x19ce4c36c51210787f71cbb080cc340f2fb732cc191618d525400b2fdc516896;
 0x59df907c9fe5249d484183f2e89f102e1f9978585c88b57b9a87e8d8cdfc6cb;
 0x2afc27a41832e0bd3bd8e947284d9acd1ac7050295b388b6b5cc3179a842f803;
 0x6e960a5b2385417429dfa89cd14d7787c0778e4c5421dba2eba694b0854a21b;
 0x1e8b790ca2d081624486acfd613245efd710e7a7a908a233ec5afe1148476098;
 0x2f68d78df4e08b23c96fa9597ab7ba5a1785329a370053300d792a0421cf3ae9;
 0xa2e82f0c2f9e345689b2f2da2108d018cce3084ee85dc83d57937facf3e56c3;
 0x108b2af65d8a2b8ef81434d73646cff6c25fe8ebb88bb768dc435caa19143111;
 0xc2f90eb77fb2855d39b745a85d3c960c3d0c1ee740d8777971c936ddce26601;
 0x3daddc5903de3d5302c7a07d4c546039fa84c3da6cf4eac9c2b9cbc94db005c;
 0x10f4d48188805d3126738d24976ef4c80596b3c6380effb23cb3b3eac954134;
 0x6701317708659ce74515f62f9128ea9a1cff2796e18eb9eafe9c2ec4f9e4280;
 0x2dd0349f0f0ef52d77602037a211e5c565e0091e01072ef08630056d907fc6d9;
 0x1b15957d8c8774076df16d49d788b11a5ad4690cbd8022437f402a6b25eb5436;
 0x2a92a1f50c4658b687f2b6c8afb5323c9b8e3dd17fdcd5c40e17db738a27592;
 0xd4cb316f072fc8e2463a4a42d168d6dc04e0b137fa4b57216d1f2ba5e64ad56;
 0x1cf0f9bf90e207f3a0aa5fc108538c641c40e0952c6f66e6024fadbd2248e16c;
 0xb81c03e6806a49a8a5edfc3db4bf78fd4beb80674d0c88dddeef543d3600ae8;
 0x1dbd32d049764d6ab6f677b89c408f9f4d3f29b5a18148cc8d5740e48ecc9d35;
 0x16d52bbf838448b0e44c2bf05229c3f741b966790438a2997be9cc660103ad90;
 0x2c8ef880d5788e5359b97d1be554305e0cf5bd55c293991281bfe5401b9e35de;
 0x1f007ef167c9b99e948007dd8060857192b9dc992127c235aec46a2b323f2f11;
 0xcd33683ec08207c56a80210d9929731d2035264394841b2b6f65c61519cd842;
 0xaf1b0f70f93bb8f5377db6517c4482ac93ddfaf6051e68fe739f161b4380fd9;
 0x24d03d522118e544c04d49d38affea789e49d2eb2fddd171613e69f4eb07bb40;
 0x2f1f0e4bf9adcd2a4f1aee5cef4c2d3f27c9b4824796953025027a37942428eb;
 0x248a412f287cd3b3448930a1039ab32281958f99a2eec0c2f1a52a65b3e589b6;
 0x21e374b45da55c1d3d89c6d2173e11469992b81beb2d3d4cd4d16038dcbab231;
 0x1c2f85c42f6a331092ca033b4ae06ab667cd8abef24b5458eb10e53346694a65;
 0x29eb555ddd4c74ab9031084127bfc25036f177be8ed62d32ed35973d3de94e76;
 0x7d30101df711f25364a955a7002fe48f47ec0a7c0acd54ba0cb551c912ec6e3;
 0x2afaedc7a657941c9e77e728f202d568e4ad1230f91d369a961b4dcd4e15a36f;
 0x2daf426a65d37cc81125c3d1cca527cb29e9451be0a5acb7e4fc81b2afae5a83;
 0xc774e81279520eeca70f8a7b3d7799bdee8371a9fcf902d43533e649c7bf48d;
 0x308212a0a56cac99561515c83f01dc3684be8a37a25197b467acdd367ee030b;
 0x20fa9447e92e4f68025e1bec51f115fb653235aba484fa0dab9cac4aa744d295;
 0x2f4f647ef450cdc4b3954ad14c7cb1c3e08d140549bc36c82f739293ce8b6245;
 0x25a6d02422b9e00b1ca5e1156b87b4cdda56cbbb341f82b4a63ecd41afc79bd8;
 0x565834c7cf03c8e542f1c3288006ba9f35c56c95470bb86b9668d0063d095cc;
 0x24a6f88d5d7090b24a151c68aede9f347fedffaa584aa431b2d0e90da3cd4fbd;
 0x14b0d44ddf5cea576cb82d399c8e4a53e78225b646d25c97b504e63dba4ccea;
 0x251d320b7603c1c86b6102493219cb1f737e4ff9b84cef7050e37456e8f03acf;
 0x238c2bec6cfad388d477c55c0ddeab2d3268155f3363bcdefd3cd8ae5f63766b;
 0x1337d778bf0f0bc001ad9dbf9999379cc08de0ed567568448ca3c0c3555da9da;
 0x269ae35f7eb384ad1965b82f8c9e8b4f65d3cecfd767ed4408a025ac7ba97448;
 0x2b01d8797cfb9616e3471921b610dc78c64ae9ab2fe48701baee5e7853ea1891;
 0x1acc5f89dfc24a03458156ff7b156b22f4270746900d71368b1e8afe9a684cd2;
 0xa66d6f919f7dce7144ec8f66cece8dbedc62327e0407abdc7bd71060f8d5b78;
 0x17978e79a55cc077d4bc92b38ee5d357ab4a6c62146b2a84acd9af50954e8ca8;
 0x11cbbbe66bb4d957813408009843b2c96cd7b02fd4b449db1895c833a64ad04f;
 0xbc7843529e13dbe304210922ae9515a2f8148eaf5e83bd0686112dc646fc93a;
 0x23d644fab01d806361de665c8bc6e972d9658d29a35e96208bf53f8fb4ca770c;
 0x48371c6200b923b1a0ad3f008310dbc350e1e3c470d24d3ad23eb41e3d93b3c;
 0x21207b1d47a4bac52ba3ae9078c265e5cd3b11a126547f2144e501c18a656f66;
 0x1ab86eda61a6bc9606e65f455c3c48d4136b03d8cdce695e750c257104564704;
 0x471b41c6418b6afadf0c9517369b01f62ba78d561941c4beaa1de9827676444;
 0x1f67ab3d71646c039ce09ee72320b2ad755ffbd7187eb43d5ae0850c923ce6fc;
 0x1d78da55a4c0c3fd78ef34b4316eddd7f36d5d8db6551bcdbc836ba7197daff9;
 0x14b37257c1f8852aed448036afe59b3a12159b89afa5e2ecb35063aa91c3b791;
 0xb904b1e068cb7712bb63b1721dbf5adf5b6717e6b0deaefff1f2a988b3a5a1;
 0x2fc100ecb79693aea91c6118b70209fb445c5feae4f6d1c5886018a0efe4a8d0;
 0xa9d77bc8f430233b59f6737b9c0197aece2939a3b63c5ac24cad31bcc70074b;
 0x1f4bdc685882ae1149affc74fa1e4ca614cd9499d75027a6ca7200000a539b9c;
 0xdd11b1befe293110cc4f6b5c0de6fae3a67edac4e84b238facb8a445fb73fd3;
 0x21012864a44b6479d44bdb1e2e97764067df69e076d1e1c310de929bcc1ebbb5;
 0x142cea93e5949c06c37dac88b664ed36a8bfe1abccb4b3145d0087410a5cf8fe;
 0x25d074e31dd093d43fa3a3a6b5c044177d43ce7739acb9e5818ae8339e9335e3;
 0x152368e8dd72e9bd3f00fa47ad0197096599bb5ba3f63401ae9b3689f5afb943;
 0x224450a6f24dd8427d8d6f9dd985630313eca57d57479ec98ed3eebe3a23e50d;
 0x8ee8bed1a5338113308a32cf4b8f0a42b9c122cb8ea937cdc1e31878554c81b;
 0x68471f745758670cada7f230140e09acb0acfc237cf7f31e063553bab156dd5;
 0x17dceed9a861ada2970318ff8b9dc13074a1113f3076ed7ddee67845662d5594;
 0x21c951b2849f51336da12e1930cbb2cd407c5ca0bdf9cf6e2ee88a8e6cf36e1c;
 0xaeb15bdd33d09c780eb1ab6848dcbc1a18a5c6a1f250cee87cf506d46c36e36;
 0x37e66e0bf7b7c7f7b00bb5c067215562220044c94bf788c40b4806fe86a08eb;
 0x2705d297db4ab693a65d4cc73ed80ceac3a6e10d57123701a52769095647bb00;
 0xdf821b1a387e78f8e2388cae0294e88d0c2dff811425a940a60e0285a71b3c3;
 0x2959ffca94642766a46cd8340db08ec9ada915d23540688ad1f25e34a9ae3afe;
 0xe86b8655306bbde01748175b56e66ca36410f758e1bc02473e4255d88120a43;
 0x8f94dc12076e1bd3900705e880245a6149ed38f87baffda0a6f4b14264b5fcf;
 0x2968e4762ea9e6ee5013d96babb250d95f300fd80d86d22cc095de9514590506;
 0x1556c2665a0e74cc056fd454a85a3fbecb57a23a879dc1cc95b98d9bc497018e;
 0xce86a48c05d429be480b9cbcc220f3a29c6ec865bed10a07835c6fe6bee34e1;
 0x21e6b5e9a5a5c57156dfb8cf5a8785d2117599c247af6feb577bb44e7524534e;
 0x444c6559f15a5d6f3781bc392e88e8ac582e487d60de12cdbc357c9623e4ac4;
 0x17cdb083db2171c7621198f51b7d189117ab80e4aaab817656342e1b0b3dc1f4;
 0xc4fcd32fbbbcfb27be41a9492ec55425969c9142f365351c7d23478fd68b3f4;
 0x37a47a18dea6fc765e6ce6ce7bd59e3d1103ab69cbf9206d1c2ff4ec0389576;
 0x2c14bab17a78ba001537e37a630357abe06ecbdbd2af7424ce1225d4a4414b5a;
 0x10bd8cfbacd505ffd57a2bfaa757ad3e45f63ef37e67dd541ef07e957984e7f9;
 0xf2a0b6a66486b55fd8273a453ef622f4c1d4e3d975c34d538cbd8440a3ce9c8;
 0x297b4eb48434dc5342e4c9a262c200331480a02109163863805bb70fc7a92614;
 0x22cd3cc552b8310954b62b62d4f7a91864e6b6cf79f55f244d384804946a77b4;
 0x5cf496eadc8ea0ccb36502f443c99b347bf7023f2d7fbce512e1c58045fbb2a;
 0x1e0ae8b082d3726190a6878f4b8889e0b6297d27de3f183aa9a9f2cb2abb90d4;
 0x2b282ffef89e1c3a90c359bc7c80133b9f634215c30c1db82a095012793c7c1b;
 0x13bae7e838c638a41a9961ab81520f408c9921070d9a02a7fe5bfd1da1dadc4c;
 0xcdc320eead70bf0db57965b29f9cca28826f6c44d824f7f122e430aa4e746cd;
 0x1b94ed891e3a73e1bcd6b7a9fa336b485a5a83e52d5db08b704afd8d48136657;
 0x2e8d765a70fd39533f1c456db12b420cac0d7b086bf19596c60cd6406b076c67;
 0x2f69220fd9209bb41b0ef942bfeb31137088ff9a338ed283de9ec3a8850e96be;
 0x1506e9fdec14a9dc03eb159d011f0baba652db364b0020f3485da40ef8079ebf;
 0x2e43093a060a595dc13213ae7211c041b29d39401dbbd4e7fcb0341914492a08;
 0x17426eb02415f1d682735382450efc76a05c6a0218671ec4fa3ef2d03980db21;
 0x22a8a8f47529433cb471acbbceda9b6dd4e9e57121745b86577da8d106171e3d;
 0x10d066af04e7708e512a382310bd9a10cbad751a721c660ed0f807f1693d6826;
 0x1322cabd21b8f9826da84816f3599f20a3324bf47b44abeca3d8e6a26bf64c8f;
 0xe9033298b7fba81069ad708a401ccaca713c122a7907b9d2eec39ec1e5834d3;
 0x277a069d3fc5701249012a0fc2d96d70c58b8f0bb45a1d3932051d4541c9be8b;
 0x2b6a4d2b44646516e0511d03595b94f5f31b538c8445562a5f787cb7916238de;
 0x1e9b7e897f636c286ac7592181135b3061cf02de5eb4c3344f2b3246f17459d9;
 0x89d5576bf0677940ec8531e33761650a38edae669b73ee5f704c018310458bd;
 0x11d91cb6a7c91f3a3778a457bfbcba977b28eb08b850e47260dbb3d205ada63e;
 0x79ebc334aa377cdaf2bb057017b776ad150adeb27ad95031c1e6d6e4585b9a1;
 0xeeceb66fbafe2552212467fbd7ee2c535244642c87c54efaed43be19344eefa;
 0x1189bb18157591e582637275139eff1ff180217439babf0369a7d6afda53af00;
 0xa104e1bc5aef5ba3362773b15d152a34bb66fcad5169061e4c74f42f8082ed4;
 0x12aeabc55f0a0a7394844072432e9f1095a79e2a7b8765c0e7f93721f5eb8feb;
 0x2d5fa7e448eba0f3f75b82d155d2bfb467c11361536d61cfac1e9eaebf9f9960;
 0x11bc382ad6f3998ae12761764e273e8e57de5244008964ddc1ce7d887b3ea15d;
 0x2f9de52e1164d578244301dc0f52c09dcfb7b12499ad768a4c91af37f1fe999f;
 0x24a160dd3b3f19071f231118426515e7f75fd3fd4d98479d855e88cc40f2a146;
 0x2562dab01972dcd2307417f8356cb096e5a52b39898d7700c9082fe661ab5aa7;
 0xc71fc8544d8bfe1eb57eb8b19344825f2800e7728874c0d4aeee09d37fc8018;
 0x1c38cee709ea57a5433ef05d4f3d8fe85d27595ab5f3bd5b1e818a76b17edc8b;
 0x1602213816c60cc200e8b2aee509da4de8952ca6f775f6951aa176a6cc78d10a;
 0x9a046c67b9802554d315821da1c3d1338311acaa29182226455685b3a6a1a04;
 0xa2ac73a3b40f2e8d93b888e15ad9695a07d56f02d172fafdc326e99ed94475f;
 0x26497f1cb3ed83f61c32795f5460e2320a0b056117fe2d4868bfcb691acc9d23;
 0x1b1a886b957b5b7af3608333c34da124c68e137697ee082e21d6e9f534adda3e;
 0x1a1cec97b3e63763610f3fee9e5f884313d66f3fda193985ffffa26388a8b536;
 0x24eb5865c2393f7e9d6da7a0460f9fe0a1112c41137007f71ffc53e90fd2cd5e;
 0x5ad739f4ae7385d18ae961990fdb8ed3e808de0108cae743d7995a23239bfed;
 0x20ea4df643c31b3aec0c8c2cb444ffec0f2351841827a82103a36fef81c2b5a3;
 0x7e426d7cfb8d0ed8f150d76e11c42bd7d0d0be868f7cc80740d14d6b6d985e3;
 0xc284170139a3d32feb893e2e393be22fc5712b4b134e117c9cbf91c06c7a156;
 0x198e892e0b6e96942779fc23ac86ed3eaf5c68c79f8f881338ddfb381bcab3ec;
 0x4f7274b4c460cc0d5d78d6391700ab706b188d6a4cbcbdcc6ca631c617a4146;
 0x257a207c9af017f50c24c8286e99a006f5a9a066997fea4d63cbc4479d153cfe;
 0x2f9195e87792cede31f827dd408160697c174a84a9cdd07cd69b4443a45f0c81;
 0x2c32457f1c8a48108f1c16491e8da1e74ae1fb598642acebb76d0210d0af7df;
 0xd16062ea9a5b5184ae022c568e887e2fd31c2d2f1320acd915b84df1cd77c3d;
 0x273821b59fc23f585f423e16c5d9571e78b428e446adaae789c159866c15a9aa;
 0x28d58138ca8e1e1f410146ec8401796f7cabf49d41e59f4b8ae942dc6fe0ac32;
 0xcbbab4a22963ed50150ae37e8ae9cc139355f83de4f38f01179735633ae3f85;
 0x2f29b839fb5759272d1519a17df03310eb9afab12540693b781c9397c0da489c;
 0x212505f1db73adadfdea6353b38b8574fd52de8ab3cbe3310f5262a9496a575e;
 0x511717ed104198d0b67387b576b020b6b645d94f205f7005ebb04161ea0959c;
 0x2cd17a3fdff1b2ee153b65554fc06a4edab7cb2d870c1cdac0e9651c21593d80;
 0x2421eced65e40f5bd7b7ce147ab0845888853ce9d9e90242ef0ecbe4df94f4a9;
 0x2b7bb1c13a605e06226271b1567d8070576b71fbcfbe0e8a0ce6ed9a60be4b60;
 0x20de93b09b10f6f40d2960f3ae7f703d4aff7d4e2a309481635693fc1e7b57cb;
 0x15f39da6947d0700036090111b9463cd322712f5fc0db38a8098abd4d3fded43;
 0x55a10c5b2e1c3d3ac97853d37acc7ac3201c3f69ba770c90736e59910299486;
 0xf86f85857f2f3bfa5fa407678359c5e4bd7f68e4f8e4af22314df5ea170cb05;
 0x2d57680dee104eb6887c77345eca7a8c131022a4471f88c54d4db9bf7a18f475;
 0x1d25e7170e6b92b2bbcefed98f7ccf94c20b97a546408d962e48f6adfdeed55;
 0x11dde898034df5d0a50a1067fe3a5b6e9d546b4268043f5998befca980271e07;
 0xd96e451da1d5351d3848643cd82ac82a91d297dba610e196992d08045efc565;
 0x1ec50e2f05af8bd16955612b7dd0a22ae046db692a340f0b814b472cebefc7f9;
 0x12e7a565e645e185f7c9e00f06ade71736d990052e72c97540d79391224c82a5;
 0x277d5ebf33d14750cec8a5df484fcdb392db7981559aa350e2ba70b3565632ae;
 0x227a8c5c6b1f1a259d5fceb57d7dc834257317a8c1b94209c3fb86fd94846a89;
 0x2bcc414a720c85a42f6ed14bf7d1e2ca7d3aa5f7d61c4ff5d1bd1eedcec09f7f;
 0x1f7864a729e70f77cc1b5cd86c193cbaa9410070863d5da37742d665e2de3188;
 0x2add533a1c14b4ad2a4ecd780397391ac9d9ac8068584c3ae69f56a9e4d72ebe;
 0x16198d9581405334a13e109b04d9d1f5638a7df278300e56059508f6ef65460d;
 0xa060a2599eb696b43d275c43eab0b3b04b461cc4c436cfe8b1748d65d143379;
 0x302e7b6c0abbf4f44b1d799791ae0cc857007b28a3748798965cb4b281822b3a;
 0x2b8971547ff17281a93943ddecb489f6c091e96ce505b7ba30c148e036b30963;
 0x21f67c406780578d1e13c001eb36a4dc2b5624dc3f12b3e4a6a02570b3e84cd8;
 0xcaeb5041b8532a723d9c68a990c083909ab94da865e673120f48846ac77bfb6;
 0xd576a5ddac69399f06fd5e247417ddb73fb47b533400bc79a35e18f0a51ad86;
 0x6dcc4d20da7204e7e8acb7404b6b719cd1536af3616e994887b033125614d53;
 0xd0ae80d2c03d27ef6d6ac6edd57faafb88adb18cb43cb3a34052c92a8a0d6b5;
 0x2217b24cd9e573c8fcba46d3046d830ccfdbe8f69e43eee315664c465fb6b5a;
 0x1b037d4657b2b3c4136ff83f2de746a1f314dca33ee2b92a806636e8509694cd;
 0x2be7d85266892fa4d49762ce64ef84575fa3bb6212df994ba9fbd4e2c3591f45;
 0x2c2ec68b3fdbe4b10ca34ad1f1c9ee5296e4e418132bfd82fcbaf437210dd417;
 0x356ae0ee778d427d6a84545bf241a684fd562dea92cd30b0b75bd9a7880fcf6;
 0xea67bcd02a935ed5631194f06968434fc9822df791ff6f6ad6c402a0beaf184;
 0x188bba4674c2e1a2b8d1f1db4c2b3de7ac2f572e984804acd579f3c22e0e4ce8;
 0xd821e605046e0b7efc627e1f2dd84177a66e62974bb7bd3ca79e142f70742ef;
 0x19bbb44064dac933d1074ebeab991790c637a4a34c33d1c9ca0ecc9559808659;
 0xb3f351b3bccd96bbca3453bab6d10bf252380a1e3b3ac2867b214d063b02d4d;
 0x1f657838a4ddf2b0639961c92619eeaf6560243c0115152587fa3b633bc7b14c;
 0x173966b03236c921b1b6e4e4e77fba43903f2b68bf83ffd2b00b2974cc4f4c24;
 0x255adfccf4dacfd943393fd90822fb3e92292b150ae2205f9ee3b6837c687c94;
 0x2ad9b647fa2c5d97d6411a5684ef18312cedf6f69fdef8f68afe434442487a2a;
 0x26c815af9baeadf098c8be65a9b66936d88a90f47c878e46d55aa41fb23a00f8;
 0x215300316d98fb3bc220cd379cbcf4b54133e613ba42fa8b48984667efae1053;
 0x51ac2e037a8cb84449738040cb5d92bec1ebf64e1a65138c7f2d862aafbbbea;
 0x1b0cfa4c9f7b4aec9c6a709a106d177fad8ffc6ac364914aabf33627d1de6a32;
 0x84f5b80cd3806bfd40f7d188bde0f5526dec4a77bca0449f1101f00aad4a4d;
 0x2fd6803e516e8737c45bf2f40736831ebed2b6e7e7e643e0d4c67b5e51099d17;
 0xb17f732c6d938ac7e85bccf9a8dd401272d7d6d623a8e59ec3ea67e2aaa526c;
 0x1b3fb88f6cab80f3af974dd496c9fa5f905da9a079017bc5299080e1d5d4f64;
 0x2319f57279981d0a12b06f2f7541826affc4e51a44e1990fb3015ddf9a183715;
 0x2f4dc289b5e7f23a370b0f61053bd82fe4cbfc7d1d11d13f289efba3a3c54121;
 0x1b679b734eabbe6f8c42ad18dab54de081c89d68c708a81f8fe61438904c2ab6;
 0xa3453c08842ef3080b3af74ee8e799bfa236790cfda0023b588eca466f19216;
 0x11c89d2f5498a788416d0042cefa0d5442dbe55f21226095045168139344f0a2;
 0xb3f2c98ca3061f627213760506fe76ffdd88ee755643788837c18dbffb68ce1;
 0x2575c71fb8acabc5cb513bf66dbd4a4946f4e21a7b2f1a4062972a08425a03b4;
 0x1dec0944dfddc9cffbb55c1902f845725cb92e09545749de3f1a118d41801560;
 0x2532b96a8b50828cc619ddce80a2e9930dd8dec6588f52ed5c3e1980ee030642;
 0xeb3e072e9fc2bea9aea03cf45eb481c4e6bd67091f59ffa1f4602fc399f21b;
 0x28a6e7466dab1f493bfca1991bfb886c2ef920770accabec486b96422698612c;
 0x18b72ad6c372bb8b3b52ceb5c65e9d78c04814e3713baa81323f2a1956957b8f;
 0x2fa98e48794fdd4cdba8e11d0cde18ce5b2cc9d0db7f65aa1b6c8609918b2c63;
 0x22d6d05abbab403b1327edce33024fc9183aa514f69d1672d49ddbfc9e063f7;
 0x22ce0a2387a223228a0a86b942f135a59d6bbee9f1b96d3fb3a151023a67fb73;
 0xa559e751dfe1415e40d0227d7b3dd1f188d99d935596d3dec2c033de5a22d2f;
 0x13202360f125ca22c281a18e21a7ac10b196153236f86c5968b31ab50c282056;
 0x1e85baa376985015ba63c3a38e7817ab0a39cd28e237233f4c1be35632fc72d4;
 0x2450b198b045e4f0cd540b0b74de5ca56d85da5fe59816af30806dd2e036c5cc;
 0x1bf04795a7979533886f7fb47d5a0b7edd2edcc1091255aacb96efaac6712b6e;
 0xf126ed9490b69935be97110c476118d00c8b07c586ba04cf81ae699607e62ef;
 0x87ed4752046c22599473251c53f69b817b08a90f431417d9bce87ce4fd2bc0a;
 0x15185030c12d8cca42f20872de699989901e25569863a4b5b3fa2682dbf9cc;
 0x1b424b9546d87ee6ca28fb8197a2186b6e001556b08e19002298e05f1664dc84;
 0x214ba23a67a222ae9e33b4615a31e7b09fa911e18880bc379dfd20ed1177eb2e;
 0x186e0edc096c6253b179102a7c9ee1496ddb6060c993fa9e83616a7daa6c2243;
 0x151bc9534ec5f36cbacdd7bdf6176a60c9bb7b6cfb26859c7bcc0d1f7bc4dd0f;
 0x28192f62ad97323e6cadfcbb9a99f5bada68adddbac3a4ddc18e69b95239b166;
 0x825b1232e6831678f691e7e1eb27888439e12e7baff84db3d18b7bd45172b18;
 0x99e93500b62b10127609071e75f4c54cad78732b48596d16b44eae459a59fc7;
 0xdd5cd3a64731f803da7873057eb0a49a2ac15bd7057485b43d47340a202abba;
 0x1d4cf162651067f82fc2124f6d674daef03adc3da75822bed2b0d8b690b6a34a;
 0x23a86b440d5efbb0a26a76a9993b6ec01c33b46924c3f601ed79a87f9c464068;
 0x2c983302ac40a26cbb323eca868e9a757e2a66053bb081bca55f55635168884e;
 0x6e98d3bafbdb42dbd2ea2fcb9698273980bd1c808f1f7de799632a90ff09b36;
 0xf2ebb91192276ca7521084cff7a025fe53e14eb884989381d79c06f9fa9084a;
 0xb67885ad9dfdac5f5369f6e3181bcc79081981eb6177db27e5d6f6d851d5021;
 0x1c32e21095beb791e1bc785043bb33cd94784b6231ff8f85a9edff92f91be4b8;
 0x121818dfa76d98589c3274fe2d702da83ad88ced9df449626506be1eeef83264;
 0x2832ac9bb20b57ecc969ba4ff5c713c40622fa6b4ebed066c655be21da02410a;
 0x917180fbd7a19816e8fc3a45fd43b435bac6b2de19f516b37641a6b1c423434;
 0x1bd85f4c4b11ae715f45a17ba21ddbdc7d1c3ba680fb978a1b2ac325bed411a7;
 0xd0f2a86fb0d48dea88049d2bcb667030a29d721e4c1776d42d783bbcfd22af1;
 0x460af88f6d11afb5d191e488712fd79cb96116844491b4277ac0b5ef19b4432;
 0xbc1783c36accadd4fba3d634e9f72c5e9025f7784bd3efb8dc72096e2c56032;
 0xeefb878f6eb1589d7a687e94813d9d8423fa50db34de8d5ebaac1302e6f45d6;
 0x1ac403196501f0054fa8d4b566cffdb7f81f429538db9b408a3dc20b92c11d5;
 0x1d5bdde7d64a63bacc2585b8a14082d8d35f3ba8c1e857df1f729c52e6a7e5dc;
 0x799dfaff2e7d630414a7ddb0fdeea103e1bc3ceaf3ccce077c8733869e52b75;
 0xfe0f816efd74a7eba5c8dd5e7a8943889962492f14353e1afc78efac50ed96e;
 0x72561c67ad2fc0793821b50518d4b5d8ac33af26da6d2ce77cebf80292bd27e;
 0x2891352ac60ffb09e9c88660b8449def9986f9463f5a81c615a7cb9f4be0724b;
 0x206e9efcc46cae2cfc7e866cada0a4c72c29f235f044d56c8244a92e882f464b;
 0x2e7c4493e77005f49407f2d5cb46cdd6d04f22a061ac8fcae04d2d93d7c8dfd2;
 0xb9e944d5bacd889beef5909a139f5e7b7f23a1ce7a1e55a6c4b9c382a511524;
 0x2635b8471126523448d0b1bce5d8f54ff5bc988a0a6fe53dca721304f8f622cb;
 0x10df73bfddab994cdc079216cb585ea8530c13da58d6381ae0c517f2ddc88e02;
 0x2da54f7a7bfd78f40c98e6ecadb665f2644b0a9539b27765df23eba241fffd7a;
 0x19ce35c6a104ee3975d4a94908f5b1e0444d7709bda7c5fc59a527cb2c166509;
 0x1a47dbbde2d5004a1be0ed7c21f57a388a1c86f8b4666d4d118ee99abc115a3d;
 0x2f037e73c7888cef9d7046e58d9988837be8faca34c58bc50f021e8734c5399f;
 0x27ab727198d9b7a62e0d99b2d1112710102464c3f5fa8deff2762af8a8699e7c;
 0x301176359be9b665abc8dda6783d3bd7730c4b4936a1bd83cc5574c694080668;
 0x30e87204cce403ee4e92e0507e8e99cae309599dce18929a9430100fc5c0869;
 0x218e8653761694cf49a1f3e275ece28866a6e9963c3ee6eea46c2b193688d3b1;
 0x2b219687a4549eb17e29db9fccb5796a11ddb6fb271b5a547946f0de32698a36;
 0x221e784939d29eb5442fd1612b30a58b9e555a398bae96d6a2d6d9a616ece0ab;
 0x80fbdb9bc4b4e8a83b2ad89383b25526e330678c057f7c34993f27eed2e14c4;
 0x1601e657a22b8a280d4452d527beccfdb9d8c3edfcb7bd0372d0df43e93e9123;
 0x652d1d878dad9d7f854e48066531fffd4773e8a5c61301f581651b50e359751;
 0x10db881688e3db58bb608ec993d36ec8531ad3ab580e65d537f4f37e4da26027;
 0x1d8a06b51927f0379250e7359f9dab93aa9ccfaf764dd70acccec7177a4c7037;
 0x19cbc2ea50b7bfbf009f709d159aa9ef2a2c0f68a5cbad1f5e1c99ea2ca2623f;
 0x1a5279e38883b53f313f86ae7ebb07d7bb0cd658be590aa3ac3b413415fe3e8e;
 0x1af136d53cdf676c284100705d04a976645234f4397140fd85a2d88a484eab0b;
 0xdb8af764eef50bb1ddccfe0583ff730088f3e9c2c555278a3c9a7376a893232;
 0x1613c14bc86f95e25e05f8ec72c8ff6aa207bdbaa33f912808ac693f137d5d51;
 0xfc47ef92f10f79d336550ab3e0a7545c74d2d3e2b9f97bcc43e4783d1d98cf9;
 0xf2cbf40b344707cce101e7797d137a9e8b011797c66fe6fb0474d2b711241db;
 0x2efd5777f8ca22678839ac60c1a308703094a9d2be4413c817c751dcf56d8e1c;
 0x2ab4e3413795ad9a695b04695db31b6b0ad0bed91bfc33739265bbdc2805b180;
 0x2e3b6d8584e42666829c0e195571c50d7fa7bfacec12bad7afa242744e00c039;
 0x1833f151de5bd86ca68d264d5de5d353b8128a96e3813ed2cd00e322dc91c8d6;
 0xea82c252d8d55499ad63c61c47419c8e8e423257732f9f686f6b106d7daf0ea;
 0x9857874422693705a7c9806340c6da0777f4571e92174d5f82c07b91f2c85be;
 0x2772ac7928af0a79931f88a87e634dd61facccf610cb947724e7a2110d501449;
 0x2e62239b790530756ca329c63e6f4338e2631ef4e2cc67e8046fe2e886f6769a;
 0x265bef6b92cd962298621e2609c90162dd587f88139bc60d74bf363c6712628;
 0x24484c0c291379917d2fd8b48439fb3d70b05b155e8bcf330a56b5027cfdbc30;
 0x2b2d449a3ab55ab7ee77d37759db58adbc91d0d50936538cfb0173360a2bd8cf;
 0x23663d1956fcf1a723085825cc67cac82d3ebbfd0134f861ab5529e2a4c7de57;
 0x28fcaec0fb6cf43a573261d10ed32c1dbb4b9975643fade00532c1bd1ea0e411;
 0x145c6e2418185a9ebc72cd8dd0f53dc537851eb5a42eddc04caa52cb3ae8abd;
 0x167376a042099efae1cd8988e02c66e8cfda378faa64e85626bfe4636f3c580a;
 0xcb735de0e612a615759528eb278b1b34107c4a8df58ea674ee7fb719d0dab99;
 0x2d67bac6616cc0464d4fe907e5f68f0eced070b8811be72905bf7758f3ebe884;
 0xdbd2a2f8d7fbf3ac403b1115523112b7f010a0adf6ca584d7ae03f947d216b;
 0x11a992d7e8205757ae36bbabb544e843b010fddc7bd5abaa82dfddcab3f85c7a;
 0x230d34341246fb715b784797e9dd8bb7307a4c46e2f4470d2c319340fdbe0025;
 0x9feeffc218aafa614e8fb7dc4ec786ed25150ec1d3507b3a7170b9266ff6941;
 0x1208ff94f1223bd249daa4e3a0266e079731f7c3f998b7fa707dd9fe53833f82;
 0x260ca3cc820f873963cd26df1b8ffec4cf349fabe16e81f2f973663466802da9;
 0x12655e2c98ad35ec444a134e55cf68dcde68f14a7b734b3834725308609bc854;
 0x290097f2c047a3dd6600b706377d0e1c46145f3a9e9e0ba6d7ccdaf7b7e05ef9;
 0x2c62e5bd65381e0972414ce0090a96c22b0555bf7ef8b2aeae1b984808d4f81;
 0x233c642308dbf783701420788b19153dcf088a63e8da765c5182649424926fbb;
 0x2b7328e368ed4b7a62fedb9cbf50104557b6c3d9be5d0c2745bcc76476f8ce50;
 0x1738ea94cd4331c7b609f42f27c4dd57d8db78b70a95da0c2394c4ef18992855;
 0x2e902d182a1fe1f3d40da28c358c7e89076d2ddadef80e31b9895eed02ca21b8;
 0x1683ff7e84a5a4f1dacb206fc44fc92179e666450c5a65f54354bbe8676f585d;
 0x132958454e01c1fd2bc43e02424e1296b54b55d3dd3ed1e1cbcf382790d6254f;
 0xdeb48b7df7379266b123e0b6d83a1fe031807f1ee37f7673738438aea64eb00;
 0x2c683489b3065e4ae5d7106e18f4553762d58ccde006ee96bd691f140b15f386;
 0x1d7c17b521e158ad420c9d69237f4ba6e8152541d878e24876415572734ccf32;
 0x64dee7f04cf564333fbdc610ab8bf68106329eeeac1b1a59614726561db5bef;
 0x21e94e5d9adad9dffcc186e0310ac54ff38b0a29d3849fe384777d0048abd660;
 0x16ee0a0b45170d89c5d91557ead0b253c39a842db804196bfa07044ae6e2b4dc;
 0xa7009f825b6fa180455fde8a901d42a28250e9948807e24a62805388cee836b;
 0x8d5a34853ddfb099fb0fe1df7460ce4a8e4952a148da641d0e15f71efd2cf68;
 0xfb198531bcad7bc91489abaf1345a3ebc5f5ded5b21c1d17237cccf9b1a4812;
 0xa91f50c72a422f3f0c06cfb1401dcade6cb99c285b0705542fdaad40e0b5124;
 0x2db33b34e5d9a988af35501af4e137c4717481b673292246d98e7728a13bc924;
 0x1b745ff9c6e53c275d378f0a69d6c0d55d598549cefbc7669bb63a3d4100ed4f;
 0x114554e3afc96df3b663c62243045e27f6a24a5c26b875e7344014b2a9858327;
 0x1aef968db4765b450f098d4e1a6210b7165c53ef336b3d96f55fbac58a542bdc;
 0x24bdf5ec4ebb16db47837189172e8a55b36038c50bf1f38cf79055279225be52;
 0x2ae7c4a1655975ac7052d101d1346efa10fca5b0f13babddd62dfefa980ff78f;
 0x165cd429a3966d1bceda614b06d459e7a0e0cfbe46d63f25521c9af74028a8f0;
 0x1bb3d4b2f67440a5fbe410756945b7bddca2ff1ded3fe2108d125679097b077e;
 0x18695f0185440a5f35ad74a5451da6337eda049d50b9a5d7bb284d52f9033d2b;
 0x2eb1bdb4eaa3fddaa625344ea650afc460306e0e3d4bc618f81e9ed73b43a0d;
 0x1de874e713e5c68d2f56d518f8eaa275229fd8fc8a7e112d7d1a24e604d3ef83;
 0x1e5a6feb4dcefc2b68a5b2c3d0664daabb1f0735ff2a2d2b68430f4d39b109f8;
 0x27a4284ee0c6f73ddad02f9d499be90fedd32ebd7af86f44ac50e354f743c782;
 0x99d8e9546fd891bbab547a0ec1dc838cf62126788d85b2759774d9de75e777;
 0x3043a7ea89d1e4fe14f1f91b584d00c3ba79831ed8d8649b5bafcf75a00cf759;
 0xe7aae04dabfa34859024d075a3014e78c9096363690f53eb0e99b7d628897ef;
 0x10fe0a11c4030def725ce7684fd8724e06d6cf0d295db09b4199eb3b6a9f06b8;
 0x168cdf6baf5e970e1e6bd7809931d487654b42e9ed5d8d92a48f1dae8d2b4c23;
 0xd241d33c552c85556e62a7afe49e5a7128fe8aa210772bbae5957cb60a239c5;
 0x1e25c0e00db77c69b87d5bcb95cba934b776ec23392d8cceb6c392afe5961f3f;
 0x22b0e52f766a702afc38c2c60161e352d8803f920431acf9410f7fd11e9d7d32;
 0x12ec9b91f395f1665567318bd3fced7a752ca01ee0a088138c40549a31164fb6;
 0x299c8fdca8918c24daf876812258a75527f1b5d1741abd71a82eac0e1fbf20d0;
 0xf428bf91d4d31184f35d770a5475debf4353ce7dca9bc22763b69943344f235;
 0x1be0549a5470c9429f0e1b6f9482f3c4e752e89c203c25b624817f523a79e9e9;
 0xfdcc3ce028e96b21f91bc87ad052d78e44ca6c96179ead64378cd356dd2acc6;
 0x136a6a9843fe104838dc085992c0eb8e309fd3d169af68af8058dd8b605eaa13;
 0x584441581ce63a4ed2174db35365bcb01b93b2ec02fed5b6ced7314a127e66b;
 0x1bf9ab90b1f5cf6ca9f0195bd4336e68135a5ae26b6b3511cc906156b621cc13;
 0x2b0bf6b3cc9cf023ba13dc6501f00a742d44d26b66e9bd7bdd96abfbb33cc7b8;
 0x19d18619bb73548590c00c7d02ec94b52bb8bbf1aa5c2ee06e1f8e875991397f;
 0x14909f8c8920f79d4686a14a1aa6e03a71b84d3d9169fb7673317aa6b28433fa;
 0x2397f311f598d249e6ccdb9af6ae5beb6f097f5a350886cdaf0691d0a8abd8f6;
 0xac2f7a3c2e4a6fd58f9e502f9dfcfc904608763d69b94ea50288dd7b63b3842;
 0xabe36a7048a34d9110a463cff2fa23b5aa0966a3c58d3086ecafa112f5001d1;
 0x245ae4790107afc9b9bd1f14c20f10d8a745f077eb15a960e5d7af379a18dbdc;
 0x14ae110b2829126250e1d694f08436ee0c56d230b489d08d32bc3503e73bf4e0;
 0x20a0576ebdef08dbe219160fdd1a7e75d838770c780a628b1cc720f027f61c6c;
 0x23a05ca5b721e48da57d373df376c5252f66e9f963c697d7d8e4ecdb55ef833a;
 0x2813d89a8a9061c300348cefa9447f1a96343f329f65c4e165b5b1387c4c64c7;
 0x2bf7ee542e32e28081fabedd92f4b18191bbae48a436273dc04916ae09a64553;
 0x25c148fb26cfe4c3d977b17da068fd67ea89cc51079fb5d0cd3654a9188b1385;
 0x1d3dd23e6048866f0855741903765842756a627897cf47d91f9f2b1ec8ab2bbd;
 0xaf7996cfa4b51163b4ea8ff49ed2ebf8a5e56a44687a8de351efc172c9bdf50;
 0x370dfbd98a73e24952f0208eb7e5bfa83ac7761d8c0b4b53ec669c693698730;
 0x13aacdbfe05a0647fc158a1306803cbd1ebf8d995d5b27bc5c3a92d0438240f8;
 0x50fb4ff23f5677d7f42b0c8184c224bb69d4f30579a6b8e9da5d22a4f7bfb26;
 0xcb2f5cee85cc6e0f9becb391b7edd42cafff7c34382aa9e19de473a2c67e393;
 0xa146430a98a85f906d31e8ca7b2757570996dbcf40a7aa8b6750667b96a2ef2;
 0x231efb23ddd7cc3485b8bca812898aefc8095078e547151662abba0cce1f627d;
 0x2ebcc008ed0ecd551829656c73b6ba8d8b0eef871aefb94a21a3ebac83561350;
 0x1d2902e8b627c0443bea9f8aea5601b21dc0a41dffd98a1516761d400f7b379e;
 0x277358dbe09c3bb9570889293f795c41d9c2c90425bdf1a2a566f9e4ee46819a;
 0x1fbf692e87da200bc4ffd4898893cefb65a43fca504f6f675193f8d63c6039bb;
 0xf3b881fb65b30fb2f849620e74a0dbf593af33bb80a15eb7fb88a09d97e0faa;
 0xa116fa32c97610866b3a93be3919080219be6057a4b75bca3a7bd7bef88baea;
 0x30384a31b80c532ecca12d2c61ce4eb98098a754079a69b0e44faa0a3beff23e;
 0x1403e729814addbcf809e49a5465ed6ba6e4f0354a986cd27e9d03aa6a9fd181;
 0x11794627e6125ac465ff2ed71d959c31860aa2d8eac3fa411b68152bc381cd24;
 0x70354e3713899b38ad74a7f5e3154ecaaa27314b47f85773b6e066fd4e63dba;
 0x2d1e01fe7b49660ecefd093b5ab269ae2030fd7827d6430c2bcc53d2800631b0;
 0x11a01533e3713e1f38f94c3906843323c0c88bfab803e135042ba1b8bceeda3c;
 0x58e4bcb4f7463bc6d02d6c40d7e858b0e0aacfc3a88dc320187d8c5a015d159;
 0x1b2ad38762c6918201e093d2bc393f9fc50fd5f45ed943a8f11b269783335e74;
 0x5ab9d393a4bb7eee00723e8de668b2404a162a0e17577a6e55b8025b1814b0a;
 0x4058adeb5ade9a9c9e3d869edb70322278b09ce1219ba45685bf8f6d69ced77;
 0x21a1c7c62cb8ece8d3bd434f87936c3a1842432f2f1a6c66101b1ac8d11c9a19;
 0x2028efb9d44e5af38c0c1ed35f9cb843f38184ee0fb9f1c42121210542b00100;
 0x24b0792d69eb31364cdc8b74c109223c1c2d244404c64a41d516076ab0240ca0;
 0x2179ff52ea2032efd95ac4e7a37a9c0ce5034d3cad366105341e16ec7483da19;
 0x29cbadb37f773c6dc580cc0c2ebf2926d598a19fa41f881e12cf4a5edfafa13d;
 0x2b892f09ea9f60fd7204852f6bb995e20c3510648bdc400b97dfb7cc4d7fbdf2;
 0x13badbd0953e09615a4e13d4b340f4e1bf2a03a2df5e6b8faf69d8697990c95b;
 0x2b8fedf8c3662b0a10576cedbd720ced69f862124feb62eec83c7150d9936411;
 0x2b3d62d6efea0a22e2d968f919a8bea56791a37b9f21d03f95185d9926c72e0;
 0x7037bac8b6690794dd0907f7e315baa525edc729833c89c660406df21bfb652;
 0x2cf9ea47493cb7867b86942e353487cd4f4cb3cd33e310e9fd4bc3c3e6b5242d;
 0x303f5a8faaf2a6aead780f2a13937d75fdb4605d8f5a65522426442906edac25;
 0x91b628bdfd4d49333c2a9ed84aba3ec2eab336a8d91a605b9dee9af0af44f26;
 0x1f468f6ef5c35d3c95592e27b1de7a213878a653685abfb0d2972fb0f7f9e32;
 0x1f5923725d991b36de8557d299cfe27d8b076c640cc4cfffce57e9c7477b89a0;
 0xdd5d7b1d0d52266c387c7e111fab8eac4404b207bc5e216ab64b7e10414a6bd;
 0x26ea3dc5cbd01be1c06cec04ef328a7d266afe33f76bbb26da8457e966351444;
 0x67231875a3d536b4511d0a0b21b7d24958a4bf1cd1eec4c597c25e3a00acb36;
 0x724bd4d523a70054c995241b67f4aea4e669458add9a6779d89cf3d3bdd9da8;
 0x1cc9dbf8aad45d67178c5b91a0aa44701628b24120990fe6e29026a0b21e9ba9;
 0x2b5841453a6653fd30c05d2581dbfbfac5ba89bda78842208e24a03c46fd32a1;
 0x25a1bd92c9ca10226bcf7fbd9b1d8e2b227bc2dd4e3d46e133ae268154674f8b;
 0x1c352fbd922724897ab79a60e47e5bbf3c4b714a907c63f4efcc5bd5cc6e827;
 0x5e44830ec170a4a5dfd9de846e7e422ae9cb98c6f499bb67681fcf60f7e82b5;
 0x77c2736ac2d0a070a1a1c6e45ea9cc526201d668ee404096b69dc85086ea9c2;
 0x303f34f6aa229a5228fec959544f831ee71a1137dedb6a4b76443011eec3149;
 0x273011559d239160d463a2b9890096ba4558eff7b6637291082c5eaa9ffb153e;
 0xc4dc5efe016498ea823fad5e12d2e003f2cb4ecaaa7f0e02919626e58afa7d6;
 0x1cb990d809fcea3daa8d03b3bcdf147a692ff7a0d8f0c114f6a080daa5a3ac12;
 0x1a0a3d386c26c3d467f50ba733e6d7901a59b7453a4a34056e92e771b6dd4f6c;
 0x20d81618c0e6ae5ec303cfde54346271041634cb3cf22219f999a54bc5033b7e;
 0xa39ba8f57c793fe65b66907cc656a97ff523817cfceccbc2c2de5bbb8dec0cb;
 0xde056fb319526dfec15d502173483ea35e6057e64949fb6e7690d3c25923f6e;
 0x3f82ac12d5be639974794fb3c2322bf6e61a262c7b470ac5e97d20a4a4d8aec;
 0x835ac61001ea7950d80e32fcc20bc0c7197d12abb0b5ed99392101390de2a46;
 0x120efd9c0663e0ef3b6c596414f018a73cb553266fbcb1564452df9016bb4975;
 0x5afc3602e02391bd4e2c5ebdda280085ec2c1f356a3a5cd2fd2372be6f3f259;
 0xf885829358024fc29d041eb29a43130ec403922c4479c55ab3b346536ac159f;
 0x9752c21e2a9c7d6d5b89634288e119a0c6406abe9e77b4ad1b8f36c9ecc8f1c;
 0x1d6bb32d414b8f98583849694ad7ab5785d88ec70bde4bcd750287016afceeb1;
 0x7d455cd69ad00e93b09ac44915f64a7d5ea3c4c1b3d176bb51859639f924b54;
 0x118886890f7d3dde9af1204a9590e10750c9a6035e66b98bbad1fb625181abab;
 0x245e7b3643a7766566395efde6e47601aafe307378fd000da08facc33dbb043d;
 0x2ceb6176073a98a6613b40f768654dad8d119ae64edd6cc84e4b34370f9409da;
 0x1b4e4d410613ae837b7f6a7f5206a03e9eca6692fa970287a53317990ce81148;
 0x80057b8e664ad580ea5f385105766fc0e3a2226520cf523604973da274d10d8;
 0x1131ec38d8960567a7fa9bd96dfa7fd5083e14f2843012ab36e946d4b901b0ab;
 0x1d278e62c58f3c17e14769fe3dbd6c6b9faff11def7d003066d8e6b0fe7fb1a4;
 0x710431fa88e036f180f0e4d46e8ed78a7e6361a239abd787b6ce2f54615ccb1;
 0x301e86b0693c07df60f8ac15ac6b1caa76f13ef5175535d8f97600b8cfe3b5e6;
 0x25870378c0b7068041b92a7f44b485605448458c4d2e7a87a26cda94ca4099ed;
 0x1176218d48c39ce7b6cf46e760d348871266005cb0074b9886eb2c4bef5be09b;
 0x1e1efc3b03fefb1c972891409432c02fb0f4e9b6f6e32b3fc10942387a9a8125;
 0x192ce4fb97eec768607210a2a8fb1cb29828d4bd840236f14327e186d3946ce;
 0x9d944903456cc43a43e9827368755b938a31d42a47cc6d910ca0b04ee10fd8f;
 0x18e4179357588f230ab88e6fa610d882442a89519ca71bf10d8ba64fb2aabf34;
 0x25d0f7bff22a9e99775d8f388a74d4ffd70f9df71d977a07d934379fee629378;
 0x56ce0d47418e2c1ed7ea63d7b06dcb7e7068abf79478e2b53f402d584f8014c;
 0x20dd7949307bc2ce53323022fcb6765379c953e8551f878c4b71205387a17b41;
 0x4b97cd5a47874928e8e3ad6de644226493ca3a87a19b182eae89812db3aa060;
 0x9374a10aa6cb0b2cadaa21e9f10459f79376f8ad0fd07830045b6f1e9452600;
 0x2114b5f038cd400d24959916f83d0cc8273f7f7a51955bdba59df3ee5ea4c95b;
 0x2751d812405f13d21c4d5937d20a981db7cd5933822124189615611ff4ba2d91;
 0xcd90a882276ea2b8a7273eda155a6fd9d63dd094b965024411281ae2babbf77;
 0x283bdacc14757e28398e67d6e7921529951edaf0c9872194456195e9781581e;
 0x16f179d4dc4f2101cea8d127a6dc09e4f25ecfe4f79fa3e02851fc06108fd498;
 0x286f91d1b79d9e681d6c540bd14af83299cfe5254d9a1b3aa634e5456afb700d;
 0x15ccdfad34d292269d6734c173e241df98e2fd75e86e61c61369c6f59ab47bf1;
 0xac6b90c6b7a47a1eda9d4a6d466b2adfe078dc41c9c6edd0a390303a9df210b;
 0x25497ca515dafc37c125efdce7ee66072c8d4c152a2a30f81e195fdbec764982;
 0x280948cfe3eca19e1cd0fbbaa5fd23a38e6728547e648fe80ba947c475827e2b;
 0xcdb1b6412b6db97dc592bc966c6e1a67fda70232ead9a157f27f6014885473d;
 0xc438d5abef5042a0a63ba4318d78911fec5373fba72bec6fd2f52bcb386682d;
 0x219ec582c9278e78e48798023c5340d522a0f7e639858de4ca01199c4452060b;
 0x3a092730cc3b1eea8a5a761259dd2bea4f586eb09a7beeb17c29a625bba8173;
 0x10ebbfc35233d7cd631b6204cdc89ba4fd932ae0581a856a395a8a52662339a3;
 0x22ce0890d9ef4f2b0ef4e69827dfb68f3a6ea6c30a24a675d51b9e199b6d7c30;
 0x18948f58035bb10956bdf6d4667c2e16ce18442a19b8c281d49b2e26534fd8ae;
 0x2619ceedcb834ba4008853aeb6a8d6144e281b7ae3678f1d52d352f04a9f0df1;
 0x244c74d793f1a16f197a2fb001bdd31e986f094a83e09d58f2bc5aed2c8beb9;
 0x16ebedd4b23d468b9f36cbdb35e00187debb15668c180c8ab339ee5b59c87cbe;
 0x2bc41c9eed9f63523245f4b412216715d29becf51d660c86bdaf38809677bad0;
 0x9edbf534745f8c735ac87a602d806b99dc68012eb7d6c2c1d4c38a0673ea23;
 0x18dacc8d13202bf232616f3a175bc021189a25a296efc9977880782b31407989;
 0xb2600a07263e83ac076bb1c4b07f48f2c2a3cf6bf7be4af77262d3917354ee9;
 0x27f6d20fce0e747cfe43774331a19cfe4c234e99d180332893f70584a17f116b;
 0x1050ba20c8f4d797a1aeec9de46fc7f794cb691a9b16868a2deffeed1bb3f62a;
 0x7ddd2115a1e35311b052494b9c05ed47ff8fe2d418178ec600487ac8e65da20;
 0x152a65b5478e0f92ec3fc360143e6a1cb83d6e99668168febed37160adda8a2c;
 0x21de44ebe484523c17a9ce162f42fcdbaa71ed4437f8cdeb885e3d4a205c370c;
 0x1be37644a1d3a397b6b549810568ec7636a1be4d7a64ae23f7cdf07ec93a0111;
 0x18e7b112693223260a25dd17c71e431be5ed4a8ab737f3775ef61489298f8759;
 0x23f7f710bc05777402a21bec4372e3b648473f3747f1eb28a78c7e03a3dbd5;
 0x2470de23677a016a0004c6ef292064ceec79cd12cb1fa49992a3b9bcd0a25de5;
 0x1d1fbf8b2e41000803ef6a50be409987c6f52d8b53b617c4055bd24e7d27bfec;
 0x27f5fe1f4bedb064473be4b6eac1ecfd656ad2086abc311b67f3ac8b8c9f367;
 0x2d53af0119dfa77c28dd102b2828fee80af9ae651db1014c3f39fa5b9b8ff852;
 0x12f19947c2645f4481c89113f4514641f4afb74a8c43e0366036e80549a71fd8;
 0x2f0073674bf4fd79d249638ec64786a9445fb590f1088ebe4a4f01fe5f4c2513;
 0x28ed45b47e0c45c29abf03b265d9fb7500037a95654eed4b6cf4a185d1c9aeba;
 0x292142dc76706392f3006b8f5b45a451f3c37ecbad9f69b2711211178683be5b;
 0x17eaa9eef3dc9a7059bf6ce3a51cea4a45ff03b7cc605cb8b05c3edf2b9d67fd;
 0x1a167d224f703b83f20a9ae1dc90be77516a977e6f2ed07da85b06910a65be56;
 0x84eebe766b141d7a2ecfcff08750b04bd6fea80535b2a0e30ae8933d98026ca;
 0x2ec0f402c6cb9709e6e3817e2b364285e18cabe290bf8b8387e9d1fe8dedca2d;
 0x1657e26c61a0eb6f8bca74c5bbf34a947772ffd6c2c0f9b62836a1e8ff6f4780;
 0x1f8827beb7dac86958edddea38b28f99e77180f3c3b959979378c47776616ab5;
 0x217a07d6592fc0001fc240be44f71c017f387006131b83f237fa4c9668ed4fd3;
 0x596d9d6c84f745470fc9997c5a1ce9d4e3904e17f16f139e1fc6f0bf27ada4b;
 0xbd2f1e61a7ed47726482de76ae4b0d7b41738eb06c9e98ff0277fea16c2b0fb;
 0x14e4f14b2a7bbf9dd8c3a1b5260c3844519c3bd5d139b7344678f74a36f4e4aa;
 0x980b0b3d80710a167df147f9d475a28dcaf918a6aa3c967a5bb55d97a8f6dac;
 0x25a6def1f1a79e8d6356671df1ca3350df855069fa1b5e7e86f27bafdee60ac1;
 0x2cb242a29724740e63d8488ad7dad6c5d37e9e5d0915582e7a71c53e536b64e6;
 0x6b32dc0408b1782c052bba587c379ceb352fb29579b21c6180cd3fb39ab7afa;
 0x9f20a1375f56e6bee5326ac7563709bff6e90182ac092f12145ca088fdf3f47;
 0x3040281c47d3b6edb8314182a595a1f3e6764e662cc0ec878b638826dd3db7f8;
 0x72eda160683c3ba9ca0dcbb27f008505e83a85eb5ac753b7a67a23d245518d;
 0x1d0c406bd40bb8fe800ca737d501e19f158fa205d9f63a30b487e615f4721400;
 0x2e1b6f701dfbe38462061a91d5f641abcc7406a5f463822b717de79344c8a9db;
 0x2918d3fd3323723a1ce75dc1b1f82948d298da146366cf0167ad082f5afb2aab;
 0x4a8ede82ea0c561443858fe08d2c905dcd445f51b11afd41f4676673d74af0a;
 0x262f76f5afbfdc84c240e686362f25cd1f3497d195c79a40cc997225a4349280;
 0xe983bd202a424f24a83f8173737dabf2c711ecc05204e1d26b4f77f1f107526;
 0x1a8c8a3b13837a4a657c26d0f804ca7ef83aac7e7516184b4c22eb7afefa5169;
 0x5a16f27f460719f8b75c49c1cdaf348739ab5a216a783039bc055ec6f0aef15;
 0x109a4e202a5d6ee943b2138dc5e3c868188b02ba57ab158a46e033590deb1d02;
 0x114be636e12060d317a7f08c44b856144e883dc8a07af1f62caf300d23412dde;
 0x1fecefae8607aeb2f109239e061d1839dfca12634a4b001bea1d1190e4ec8029;
 0x1cfb5006b6281147b05dcb8a08aa54a7fcfe9b121f12bd36e989d2f47cf809cd;
 0x2c2e31ca27197590bb0d46682ac10d2009edb57e0a88b4790d731cb34e926d82;
 0x18f2a0b00b5449f4bb8265d9bc2b03a31a1ce6abae5eafd9eec2f3745be561ba;
 0x431b6c629cebdce444b0af77df0808506106f7657209a9c96c73f6b44da6b02;
 0xcf33fc2fde1e171be151ee344595705eec9d0930341489adc6433fdb9941f93;
 0xa0743877b28a2a675966e6ad6e2caf32f78fbe830bcb0187aba4c21fe7d9275;
 0x195b9d285a58deae30758a177e20a4cf66350cf4becd8126bb5b89e672d39fca;
 0x2c3eac5d52faf5b46fca54b5e7c16cd9503bf62ff1e3f7caf95149021544476f;
 0x10008396ed7e26097d6384716ddf29931bfa8cf88d0f15406b7d3e30146bcc2c;
 0x9d6120d8cefd8db99a2906268fc116f5d31339c11908252ec08fd39aee66c7b;
 0x29f60fdfbe0d77c1641825b499e2452f5fca3dfb427be07a32201bcb38019187;
 0x2a77d988433dadddfa317cf1a86c2503fe0194fc1595e7f8427c0b83f90b4180;
 0xc9650f149c994670cbb966f3903e52a637e956b5792fb69a0d7376e732e8113;
 0xcbfa17b2347e6821f788e9a44255c13f5032598d1e215a822e3e7ed9b757cba;
 0x167c4c995f5a20357496678fc1ac33e08431127aef92a9a00644c61effadd079;
 0x17b09378da9ad8fa77b5d10db6cc7b522df95666fb204aff23c0b9a9eba37951;
 0x15444b346a2eee40220d5abbda30324fd422b12bd062507887a1749c9dbeabd1;
 0x3d08a26f86c97f31c4cd9a01a7f68fec8c208d42ecaa7ed2cff73b74dc18656;
 0x1c539c92417e0e11b263d99a0fad8fc61fd1c065e70399aff512d8777d7cf1b4;
 0x19b9209e1055f404647d2f0bd4817e798972967e1f7688877f4e857400ff8526;
 0x14e73253e3b5d2c90f199959ebf071b189326f39d1772986de1ba79db72f0a1;
 0xf76aa8a09cd042559e21edf64495557e806592a1d72dfe8ca3d583a04febd06;
 0x7e97e1977f873a0581eda757955c93274a87454a65e6dfef9440bbe12f01489;
 0x2fd534af9df31109c948d5a5d9336b8d7bc51895c34bfcdeac48f8b56dacb362;
 0x1b7971c644b7fd517033b8df2325df82fa22a3b79a9ee0033237bb43fdf87723;
 0xc830969ca91ef87be109af46d0ad62c93e80b1ca9307d72709508cb1fea64a2;
 0x1fdb86f3412ebb18754a1f9cf4df3096cb11ba89e798962295cca254c565f2e8;
 0x2c9a5c82481cadcdea6bfbda30343d9815221e29ae617a30f950d29834ad2654;
 0x23b19abc1dbe34a9793537f1f39a3d81944d1b8cfc4f26b0639ca4faecd98d2b;
 0xcd6922f3304a4d038833c697b0774147972516bdc8f96567b29a64769715483;
 0x183212f2e427fc1080c237bfae4203ef12472a06c827f93dba5d5af24ec336a6;
 0x4417a0dd6d3d8cd6d2ef81cc8333322d70f264f5100874a4c1603d1d6f839d0;
 0x1ee7fd86ae6bfe916fbd87cf0a72a4be433d4d3f5b3b96707eda0c47a422c3a2;
 0xe386dddd870f8041dfe619d4dd8eef851a6391cf49eeef6f1f1443eea173d10;
 0xb31a49e957ac3bc7ff0f65ee6fdbb4cf4b145dd8a234f0d7e6c0639bea00747;
 0x17bedf9f13ab9ce8a6e28190479939cd27863b892ffcdae05478a0859c7eedc1;
 0x1c28fb33d99dd1b3ae37f884f3552546a4f5afae562f4862fe1e92e702409e15;
 0x15c6d0a394166967cbc39280505eb9528cdab0ea52f1595c5e7871815ffd02cc;
 0x236303150f9e76503ccf1be5c90c3a485f90f7c1ffaebb1c4fcbaa82a0519bcd;
 0x1fbbe0747bd2bbc3ccbb752ced9897731942f79d9a761d3aba4a169681e30fe0;
 0x147146fa6f464f7e58a1304441d2b7f64333e21779cd71f880962a50ea6385ba;
 0x217e02c928941516f5a9a78eba51468d93bfb278d1c79061e666df4a32092c03;
 0x246013b423cc893a16b68c228b01b9380b47b0afbe4dbeb1b4340f5801ba4c1c;
 0x2b5225496c1e6facd5b74f12705ca0d4a7b77c30c1c8311c3c81837167ab45ef;
 0xa950f572749b6fad6d6c324f40568d7219e75a884f9bbf941b20ee81b42c022;
 0x1a71888e664d2ba9bba5aa22fbc380f29810d0927d286af59110769f07f9976e;
 0x15c5c720ef6fa5b02936376c298394bbedce59824d6ca9fc260f5edc8ea5fabc;
 0x1c84983cab32fb96ccd0276d25fcb5a978edee693520c0b1ca097792cbd1742f;
 0x10759b7a744e81322f8368fffa6845102867e21ca6893d97b463094ec72a1e24;
 0x1ab43f1acf28763767e587542a3f399f0998b4d20f532d1f5b3935ef2ca3fc6a;
 0x1d32f2e0c56427580de962f147633899ae7237f4ccfcdd52e0d9b7b037ce20cf;
 0x2147506e00fbe0f6458115126df9eeb1ae4c331a4a381915cc195bec94888d65;
 0x4e95ed8d8a554695f2a8441c175f22c61ab041aa4d27e4821062b02f7a29ab1;
 0x2cc181f94de5719fe2cef2222777dd98aada9d4cbcd076a2cecb3ea78f8bfeae;
 0x1615f6d5826caaa678c4e5c01cef49b442448157d2c651e3b1c99d32b2c51c0b;
 0x54b0e2491d3ebd17f7fee0b0dce67b82346d224aaaa477d5d98fde2bf5df5d3;
 0x21052fe17f3f83390ad8aaaece48b7924e54b8070b6304f4b4e8ab9f89493713;
 0x1b1d8d905c713958dd315b0c84a65d479f6fb8d8698630e7f096342be4f129be;
 0x8765df92141cc7b51bd0873fb5259a8acd5a9b5082889ae550bf3ff1e8cfc39;
 0x1dd1e2c068b653203542fea3746329eca954b9e28fdcbd895870b32f34811054;
 0x50582affdfc4e5c3ce73d746680b830a843939561216767e4ee6342502e2a18;
 0x151572a6d1f57de2fa9e4aaa545ffb842bb184ad3e0b0bde29271b55732ea2d3;
 0x18d0aa380c379a8e7000532a66d561410e8d118d2eafb6c0d6d3faf2dc8e85be;
 0x2424a586bb57c0883ee4ca4ec731969c7422502c8a219cb95ced3a1209b05fdd;
 0x174d6643ccb632a14b11162fc35700604c59399d3a007f5f891504bcf7d77cd;
 0x182104c94166052fdc748d49799011387915b299e04a80e33e612740706e7a6a;
 0xb70c1185230e22dcb948428cedde9d7dc9c967ebd45af4d9cd62da07bd522f5;
 0x1db44b6e0142bae1070f734522bc1d40b99cfc51e62ff6dad389fde5dc68eca0;
 0x23779598119faf923336a2e9fe15a7a32d4600a8b1f7bbc73cddf10fca81aab2;
 0xd310d08d48c04dc78bda687d48a00598bb963f09b18df3b8b8d31629b7b8a82;
 0x2a8bf4e2d52476ec48829a99fa53b47cb1045bc3fccebeb252218186161c7b3c;
 0x13cbb0f381a6e6609c3fe4077dce0da32138966e7ba2812896001837585b2eac;
 0x2ae412652e44172733e1939fd32eb7804647d29768a74b335036b24553571b40;
 0x3f426a5c7707a7da1a8348f9e6c0e6d5b2d507bbe98a006f715bf2f28c14333;
 0x92fd1fd3d9c5bfccbd1581b4a16ec0a80915ed2f56a3d4099b239a9b4449cd0;
 0xb1e816dfb839a8b31ddce51963f3521131a5aca1cfcb3d20492f9fa4ff2b8a;
 0xcdaa3a637ae81ec5fc6b4f592b5e04f7fd8f1f67b915d7fcb95c9c5bf3d7c73;
 0x11fed5b9e736562938a571aad6c1bf987895bd25d53efb5e93a89589d638d0fb;
 0xd06b9038f5d041a9edd114b3d6346ad5e11d8817dfa3e74034fb82fcfbc8632;
 0x22f79b3d9df4256fc835f23d5e16c8f963eb0f80d76b90c47af463b7ee49af2f;
 0x2bb2ecd74be3c847c7df14a1c83937f8b24a3ba2744959a2f3733dd4cb777e6b;
 0x10bd1d611707ebe4a82d2ca962e0054bb2b7631de85e3468faf005adedc2b931;
 0x2f4035fdb1622d23d1b9cb82da64f9f7071d09732cf17a53ce842eaa42f365c4;
 0xfa7d8c17fa7018ad14f089eb8564bc9a7c157700bbd07c3a64ba258b8e7920d;
 0xb8ca93688bfb7c1ae365aeb344630c19d0f1e74b666dec2b00436f496bcc5d6;
 0x10d685614a99a405413e3559d826175205a03fffd9b037ced90bef0af0db1a72;
 0x68e162c6a02caee021d6f4461fb4e1ca1d6092a85d90044c3eb14e07c4e4a83;
 0x2f6d6a0c4ee21296496f69a965cb8fe239b91ea81767cb82064a8aa5e27bcc56;
 0xc6a439aed8ec86b5ba5f2a4a045faf2fe48bb442d9f7521bef498d057c2137c;
 0x1e6b0d4b88e393a9d915c013b4fda5a7c3b589872c06dfdda207e1d6641aae2d;
 0x1b2116f8a7de6981e99425446c1b720cb44955dd4bd46fcc6c522360e1c6bd8b;
 0x5013f00c86773de39c01ba3cceea5c0cdb0d882f199569fab37c440e25a8e56;
 0x83d430c489ec684c164dfdbfc5a0556dd90abbb11a8ba1037b92e7c3ce42cd3;
 0x1b0dfa5c2f0fa739b03b0bff40616c9b5ab246c29694473d6e23ba5c5dd98286;
 0x553fdcea1498f28a9c4a586d47b0297b237e59c2c0e7034459f79cba4b29045;
 0x164c272c42e1f907ba9fc7af62e5a9dc836e9e7124eacc6dbc5cfeee3b74e5e1;
 0x2eeee949382b74229a3a5f86420c596b8224220ee9c1d093cf965c2003c773db;
 0x1aa7b899db428b649fa1e4672581909f15a091c301c527ec4a54c3c093ed6003;
 0x2844667092565157f2a88a0558450adcc388e6148d2417cac3dff95ebd707303;
 0x247c0d8658c6a57ec482adc5e9ee6bb67948d96c781ad98311e279b81f67ef35;
 0x21621a3b3c6489991b000d1efcdc69b0a540d09680497d61e96284e668c9abad;
 0x2daeaab1259ff6596d09ee4b567cda64ab0fb88a31783266e5d14048118e62f9;
 0x1906cafe7df4f4a8359a4818a4ed5b6769cada0a2e046e2d6138bf8f84409f4d;
 0xc2adb51600bba92fc53dc2165f80f7053a1350be50f6268dbe18b10eba2b31;
 0x26b285169225658f8ccc3040cd85c3ce1f447e47eeb7be8e3b6df38df3d44bcb;
 0x1c2b7e2db564eef0909dc7753604a4cc5d45d643355e3c60321d24a80ed6ccad;
 0x2dda3e9fc09d2c2e6d52a76bda84df106ed236ff956f127a804fc7025bfcddf8;
 0x11919b8f4797e0ee89f05e0428f57833d8b5e74104814a6ab664de8a45887ef6;
 0x127bb2c1e855294058203de7a73f055c6f42601a2475b1d75f9395993ada7b1f;
 0x2c59318cf432b8e499a99a0863c914e8c7836a23b31bc758028182f83283f61b;
 0x13b24677e68adfb873ed0f23b0025bb5747a5fc744353025d2128d447017ac7e;
 0x2628fe26b4d2bc5f8e90679f798cd9de5a47bd2f0486514b6db4c70cf3c247c3;
 0x237cd160a1d6ae30ef20c93476c9ce0d6066c0e7a5abd261faaa4bccceafeabb;
 0x1e1ad584ab675d5b5a4aed3ca5b804d62c29733574cb9c9ada2577d876b99c24;
 0xfbed731a82174de7be9e047985673580ab6cc4194893884c9f51ea11ffe8f58;
 0xb441c8f1423a29a71b1dcb16fdad0316d5334a298fd4480125e6085dcff1078;
 0x214e573a6c57ff7da396c0aa15efaa21fc0930c59984cf9c8c74dade3af961f5;
 0x1b6e4364576e33a3cf54bf21c10a91c48f7eddbd9106b505964ae8e0b48a5dbe;
 0x2cb60dc30aafc3a99f1f439eb34c38e8a7ab265de46f45003cf2600f3a4619a5;
 0x81c0b5c56711e541bdeac150b0644a7cee255102a4622dd990f3410d16853c6;
 0x1920f847ae83969af5be395a459838984a0db77310b2c8c533eb602908321444;
 0x1bd14cb5b0950d3b4783c53d2c733a2ae6e914ec6015517039128b154746aef7;
 0x2ca16700e67134be0eef329f561fb057867ab0c66a7fa1dad6cd60eb3c0d32fa;
 0x23a4bd6bef7f4d21c26192475547245663fbdd3a251afca27636ed1dede95365;
 0x90204cbe550a36f11c9d12b2a56a6ae7399cffcbc1682d7649cdfa12b5b3a2;
 0x1ae99456d0e8b238516a52067559e599207da285d037bed5c748f39a6f94a04b;
 0x2c18b3a0fc4bf35beb9a40064a69c7d976eff45bae2c1691005cb835ac07f44f;
 0x2dca944b91011ea9f224fe5e0612ec2021e2e311dfad8d8d52376b60dd2963af;
 0x2ea90ce7f34c864596617fec562b4cd9fa0acb71161655957ad4615ebdf4645a;
 0x7d2a16fad795f38267999a70ebdd9b2b24de85aad12cabe10855c2bd71bda2f;
 0x2364415fc864df4c341a8e4267a1f3e832ea5143a4e2686e0d8440c044ff862c;
 0x2f5c88b96aed854cc0049a9ba476a6ba61789e5692cf2d7d8d9a7cc7b9d0cbb1;
 0x29902aaebf3e38f0ef39c37deb5e4fb0f32fcf23b74511a62146b3f79c25f6ef;
 0xe190e057ebcf02ce0360f76fd5b279a4fe2ba80646ed69cc7d568411e81cb51;
 0x23097b82c0c75e53cb8084869e51400bff9e1f0d75b5252e988abe3562702f7f;
 0x30180e17530b860901b1fdcaf23b2efbc13ebd49574e69aa6df159d4a9dc8553;
 0x11ba605959afb5de92d0a0cf68945b5e660a59e6c9dd2ee4838a9e52dd37a09e;
 0x19f8beeb3629ca17720e83269c010278231a330319beabe793e9af41518a34ca;
 0x278f39897cc83610330db265f6f959ec983fa13838ba88f76aad034c2f90151b;
 0x2349cabda83ae2bf55842e72b804b36435a49e0b2f8501f00856605e24dec382;
 0x7279b75f7a7c121005c3b62b7d19dacab6e1543f12bd3665c31818c5f2c7aa1;
 0x6a49cec0500c059bf61970d3a03c4eca079f3bea76bdb652c9c13eb3a57f26;
 0x877dc29b504019644485576670f38ca53149695b5aacc5c4d50108e2683109;
 0x29494a499fd7cc4e34730c48b22a629b24d74a728300696f523befad8a329f77;
 0x62086a3a24f3dd07219b38975c451b48409e3433eca86c0832070c82f6dbaa0;
 0x2b00d39eee2b4106a70ea6184d95dc19991a0fc21c472717740c3276a9a9051c;
 0x25c788dedee36b381925503dc1bfc81f09876364b764989f86b9a9642c92eceb;
 0xa339d7c3399eb0090f9ca887196f55e5927dde8682c37fc9e85005d0ca14e5d;
 0x10fddd4d628eecc6bb55ec4ed563c9c9fbd76ef45c591c221e08b66f44c9575;
 0x8cad7f09fcd6d0a763b153a6ba13d09e4fb910e98a745707095c42ac32f7cd5;
 0x2ba8cf3a07138c08643263e2d4edcf9a4a47328bfda137edd4115ba0b3274d78;
 0x280c5aadb92f1863c0ab20ca14b01b00201b21dfb71c1ed32959b212dde8e8af;
 0x243c43be625885bfba5754beffdb8c4e2718bd1ae38bac39b66883a20324547d;
 0x1fb8a7db96d88075b7ab36e71669568b1a88c0bcc572ab1c780303c569e4108a;
 0xf7adf6a27eb979d0a147b417255058e3dd399f254e1d1571e5a6025d85d593f;
 0x2a9c20bfb0234dd219ac5933e7616040ff98d6f099b53ce9dbb76b7a21c655e9;
 0x2db11a75d864992a6df56cbb1eb569da36927f43362e983de12b7661aa91f465;
 0x29cd63ef57ff897ac5b7df3ba8ed72d43a24ff18a03caa4d99f1e53190cd239a;
 0x14d0521932e873b6db85e6a3aab001469a168e978eeb4c1a9386190dd74ede71;
 0x26a3e834054cb4736723d1d15a241869f8f23475d377e69e4a3731689cded16;
 0x8bd8277459e8e0a8359ee5323541bcc1465b27b9685fcf0d77e4aa73f4a5ea2;
 0x19f6a1b5a8022bd124d262a77499621114c87b1bdc8e8ac715f0d906b5f571f0;
 0x1f99477db5031b0ba723b1c0c6d156fe88eaf78de09241f1f59e0834f91c0817;
 0x7a87edad5067f361df3b764ef37fc31175e017d9635a6628cef9158f63d44b3;
 0x264fe161c98a2c04514b92f20b75c21223b2c22655e8fe2f76e4ce8d2563910d;
 0x25bcba83915954bfc6a3fe5bccf6ec56688ec209cf1f976a48454dc6ded0799c;
 0x2742a82c41ae2ff68e524803a43e387e425e943a2847fd729227cd01b707dcff;
 0xa4bca229eb9cea967db5f8650f3a9213a7eaba0664529ec48cb4816a32f3e40;
 0x162dbbf72f31e2af5a8c62975d6add0dd747a86817bed09d690d2095ac1f302a;
 0x1d90d3a9705c5a9a1e06c777c9158d78603ad4f9b10cef41aad2b8008d86bfc5;
 0x2e97da108e41920c71507d3ffc4198f4e403fc080e3193b63471e816d3aa655c;
 0x2bea7cfcff46cb79828d1bd5bc4d18a375765bd6927928bcffbea2aeee454519;
 0x2e5e54e0fc642d8a0a21df48310fe89d3ecb81bd2d564b2b12d37ea41ce66374;
 0x2df4a44be5efc0c61c496a8cb723e9fafd7dca85ef9c5ba52c71a78ff2a59d9a;
 0x1dda9c60833b52676cc9476ecbcb34ee7f5b759fc0f8229f1d645e38073fe051;
 0x2f91eee054fa514321dc0aca21ff25af7381ca3f4ef09a2fa27355c4fbd886cb;
 0x94327a79722ee116aaf8196c4844e442e7f36444ea9c816948410ff111e3503;
 0xe0de329ebc013684671aa68f0f5c56a65a3c7e31b34af28d42e7db606b2ec4b;
 0xbfc1bdaea3997e63db63e94d43074ea379d5d5f9616edd9f19c1787e4875937;
 0x2d74256d470e8f893f5a6a127237c24502c9e10567b892f7714983d142d007b4;
 0x108523062a51a8b428eec2a66284bebd07dc1eee904f4347083fd1120649d616;
 0xc5a805d2ec7e6b3201e4954184dddc7a93d39fc221fd8674b33b68d65ca9e48;
 0x172a06215673e0c0432c98acce1c426cfed640850197e72fe848b33efbc8808a;
 0xf65d03fccc7537eb1f4fd6c5cd05fb04b40396e99328a9e9f344c5dbd2a2e9b;
 0x20c30ad3d6b572577a8733996093d5b939fb80f2e7caa53f0cc967c334dcd6fc;
 0x373febde10260fefc6ce9670914a9cec5c205a75d23def62e22fbf31a61dea3;
 0x2334bac29b92db769c06308b787943375ba7e4560fdb741aa6569de8d16417db;
 0xa3e20c8a61c8bfaecbd65e43b13a59382b021358cdbf7a99805d65822f437ba;
 0xea78ba65528ac7035e06fbd9be63a50e0caf8d0628f33c7b229d0931aa6f05;
 0xd1682fa0a924b9b3511188fbc8f21dfc6f9ef8eea1891607f22b1f9167204d8;
 0x2844a8efb853b2db634a3cf36ce7cfdc331e7f32b0035d6705dec154b824b4cf;
 0x2a2a574661f939e6c6a49f90107a2b54a0002022f963c20c1bf8753c826badbf;
 0x11cf62ee06e4ab926c482f35525a5dd300a259bead4cd8fb9496ca06aac9065a;
 0x29045c7fa9c73fc5b1e13499d171a16f376bc8b812f2654908b5ecd2b8261769;
 0x57e44377642d4f3c7c1625dec2f3f4d22e915c7e90552879af016f7a1665f21;
 0x258c4640ac1da995bd0525fa9162d7cb3a5d9b267d044a8c3c3c4310e68971fd;
 0x95ee6ff5568fa535092d74c16311e477b7c62bab5fd585b7d4f1bf65ab4cc6c;
 0x806951088d6f83631a371948626f66625800d5b61eeea63d0d53f1c46ae4e21;
 0x2e8cac5fe2f70b026d84f39f1bc80f3ebff2093625a1d44d8c9498a3172ee2fc;
 0x112aae3d8032ae80dfe027a70961c04d17c99609a38c2a6e6a609ebd312a114a;
 0x7f1bd289aaee1f4c2832bcd88746343d2128b9826f18ff47a02c604e04b256f;
 0x20fb251f294ad1fc3d553cf9dc532cf2105d28b419cb3379be54f68384d3656;
 0xa76309ef4f35a0d942d2adb40042103117f8a92f8fa22713e5c8f4630a33aff;
 0x2e338a6e276394e620855137d23d86e73b6a9c44713543e6ef0ca373032b662;
 0x11277c021f4bb0566112a62d02989f306be3d6a61a55d6c2bf32b9b2d6eb488e;
 0xe416f597798c242813d07f02fa3f5afd3cd23eee8bec05ccf32280d2eaf0e85;
 0x1246e80a1e90daf8f50c8e70a1973229c1c0476a262df79136087b3b252325a7;
 0x2e7f56ac53002afeddd2ecf49250b5234d40ed25924ce04da52fb13d8197db4;
 0xb383f460b713d1af2c2721ef86ddb9ee97b4d51281993edb77472acee552822;
 0x14c46b4a3f25b85a2d1085cfda812c8ae5586600b476acf5e6b6145ab449c52;
 0xba3a95d3c28b392f3957569179db635593a9fe5eaaaa6410259cae7a66ab635;
 0x2bbd2ad310bbb5d2546328872c54b64e25ab05e3477e04ce1f03021ef31b90b;
 0x1cf0637ff2abd72a4c5d8b24af9998fc29d5f2fa62ab47914df14e897467d0a3;
 0x263acdf45d079d43b1436625d9c3229e58d82daf3a40bf89e2672ff6785ba580;
 0x2811eb97a600f13912348f4e9af47d30dbe08050ea0837010e174ec3f3acdb84;
 0x15e681960836851b15c8e9896e91d65ffb1bc247794c5900e68ae82f1cf732ad;
 0x1a1bf5d7b73d6cb3ddb0fcd106550674cf8b492a86440f90994543471d554405;
 0x9137e8736492afc6d714d854ec1bd8c0fe63d4029ae840e6ca05fb3a8b36243;
 0x10075a0236e3c6938e8acf35759f8c19c8630260bd8e58716edea970ec02ba58;
 0x126344b41cb4cfdd9d78f912e02ee47059c09159f97c42943c5d2b735b6769cf;
 0x472a9ac7f6600881089a175f3287ffdc01fee5780a38e1e088b06f047024c4f;
 0xe52b1a8dc66014a14af480b80c8b3fd99592633eeed6cf9506e4f6ca9bbb8c6;
 0x190e307e6626ac796ed7c96932800d3f155ca89d84c0392bb48a60b009867540;
 0x19017529213e1cb331a1d076be3254c8ee5d9ea4005e9395706ea0f918491384;
 0x1889decfad56cb14a6e2928091550a4504fbabcd71a9f4e3895367adccfec767;
 0x14b3798bb27713b3f92fb086492367335424c56e0e7bd9ac39b5585fb18d0067;
 0x217faa0b7866c660a700fdaf3ef0438acf44fc73cb7eabc5fc190b64ca97056d;
 0x2bf465cb5271fe563121bb90877a821d529fc815fcee372474ec02cf398f9bb8;
 0x6a83b6f33415934cc47c952b7911c5740d8d56de6a34837dcf8292ba823811d;
 0x26bc4b7152ec95967de18162da0400a2b369c91088835659da957d1ce2b49e7a;
 0xd9bc3639ab1e9a50234c10d7041ea2220bbe7c94163188fab1f79e656d13b18;
 0x13152f0714ede97bbaef3a29d44fb441aee818dac04f11e4e5c6a4dc31c8cb3c;
 0x1afc129a674ba4ac7552dfead9ae8d2d584dc7e4a2ff2cce5d3b6f1350e08d27;
 0x28498b045dd1b9b56e558065e0d7100675fa16284ac0ced1048e07c280a1745d;
 0x13f8baf6efc94294c82829f59da2ac86191b031bbe2b2fe332cd302cd5d946c5;
 0x2b0314eecfcf61ad7d4c6d8c7b95ec7fc99ecf8a648c21e23fc5f1946432f790;
 0x2bd02329f573d05bd14eb5971f8e6df9438e8ab78b2d37a68ddb1a845d4cddad;
 0x2f121eea462e2dbe253184030c4c1a59fd50fab1ac5c49ebf621f32347dbc0ca;
 0xb11ca165736db53fffd72e0d939b16fd5bde07a03678dbb6fe1302dff3abe2f;
 0x244d9d9b9bdbf0a622193df5b53e533ae146aeffbb95815c14dd44340e192b9c;
 0x2dff8347e64c0966cd327c431d42bbfa8e43ed65d58d452d2486f2affb4fcfa;
 0x22362991babed59c5de9d9fd96a339ac988181b256bf1aec52a3d0cb8952f717;
 0xb5ddca04cf6621a6f22b94b90395a58fa8f1cf296fe5beb4049c7565f4f2a50;
 0x3b3edc6b3744cf0578b2ec40d13a99debdb6e71973e0a40d265b99a54d6310e;
 0x2ddfd9a5dd6daa9051779120cb17ff9046ede5daa24b5c33368fb84b55bee38d;
 0x2e928f258564f11bd72156b627f0374bf8a557c49f88598ac940227ca2f59833;
 0xf970b4e284e95a97909459a34a03b90dc9703b24f9cf05fb5250c1a24861071;
 0x27a802eaf2f9dafe4845f9b30907fdb39fdd9c44c5d181610f55882b7b381dd;
 0x4ac7bc03182be8029a8440ef875a248a480985e693fd4eaeb92637c73e89e31;
 0x75f3191afbd21d51497a26c524665de743157121f093c120d93e180582eaf8c;
 0xbd3be9213121f779c2b2b0a024be82b518e1bbc134a65f440c4476a9eaf585d;
 0xc9bce95f2d5967d3b58f93d7e03c93170917ea53b5f8b27dc70a1faab474cdd;
 0x1e3b04dee6ae6635722e354655f6032d1a5ca2e6d7afa0c77b0be192f4f0c6f2;
 0xc1fc33b93195f2aac03fe6eef3e4110784c7c48322e30ee51cbd78f6ce9d93b;
 0x2ab604267dae12494550e1ef273708dd11c17666770ff0cc7c077c935bf2af8a;
 0x1c69985ff78559519a0052ea05e608e35cace62db7eccbbcec55af3db9156468;
 0x16334fcd421256398cdeee08a9345a527decb71a01eb43524f8d3ddb0db24d48;
 0x7ef8dd7665152f85d00939cfbabcfe37e2b1ef8a77a84568aefe01f1e9b5ea9;
 0xdcc426dc88bdec8c2848f2d88a200571b8a012cd0870fc6ea0b981494f58278].
(* poseidon_bn128_constants.rs:11719-11911 *)
Definition bn_m13 : list (list Z) := [[0xd064dee824928d39f2a8be7d2fa583223c33995784d228839adde2559592592;
 0x2b2ff5f27531b6f3d6a85d75e3e08f3a2f0dac3680a6c26d55ecbf803ca80569;
 0xb658849ce620bbeeff233b7d12258015ea9f87a5390f5614981eb6e4cb4a5fa;
 0x118132fbc1cd83f95167cb4473d54c6bd2c417e2782e5efea16e72d47b48b70f;
 0xb5944768d61c1b3562a5749f4f06c4dd085bb562b838d7e2ef14a21fdf524c0;
 0x2b04d6ffbaf7144012d92c5c6212803c0b5bcc0d7b1950b889d1fa6f3e56445a;
 0x29be2a42834ae32de3320fb0ee46b4c102a3d1ae44c5dce152fdeab5450c9c44;
 0x1946fe9de0a943d5a716eac08561cd91f9031fec82da9ab72883c7b218b11eb7;
 0x1af3ca6240a55aba55df8e49835b92fa17e39ad5701ef70f8144109f894bf1d0;
 0x81f58a91a4e0d100e0369fdd81a190035342fd0677ee1bf5215e47f8e58c2c3;
 0x22a852af90680a8ca9688b71ed27c157d02b406bd6c7fd8121d7c7793ad2305d;
 0xb27ba82a0ffb98368981736ae927a227828985c00c3e5df8c1276b1001089a1;
 0x4b46526207edc70a0d23c8438bc49a365635552dee240661a2cdeef966f20f6];
 [0x2d8c70035731ad9efba92821a88119f6b8183a362be641729a93d6a327c03809;
 0x9ef3492ad19dd1d0bfbeb191330a880ee7933c9d3b36bb5fa02283bae5d605e;
 0x1458de516a534190c5550c6a1bed3af535c38b242eb9291373096ec60e39c1f1;
 0x136ef2515955ff6619498fac59424816189f896ac0ed69b59854d105df47c4b4;
 0x18cbfde0cd21c183797a2f089594a81cd828f3b0742371ed02eb83fb0064dd43;
 0x22757da9e822345297bd060a3f71bb1e70ce977049c393235035677e84357314;
 0x1622805125ddf344c18e351d11e82291618b975822ad0c903efbeada5a51d44f;
 0x29765d8cf77619a580658d127fb6faa44d6c70a0f4d65dbaa960754b4195d9fe;
 0x2bb0b6b08fc1bd11070edc42f23e807b82e8b88ef70355dfc74e096a7ff381cb;
 0x4951e747b7ae6b99d9250108c5d2b70181a93ff1d4bf723781e1b938029827c;
 0x17780b9469e81ca70c7cbb4347e7fb40c63ef68f3dde51d04cb47b3b83fc299e;
 0x1913d51d9c71d042bfbf649d9e6e6ea5fdd82b4fd3173ff2fe02b85582528912;
 0x2a9e342a56c8b6466d3fe533b89f1ab441b62dff3153d3ae6500c2c3be6365e8];
 [0x7b620c8a78e09e49ce547aa783aa78f3e4594c49ab3dd6f602bc6c0351d823f;
 0x27d6bd18703d7ca92aa24076d3187b6c0028d0b6213d9e5d2c66115237a19051;
 0x2969eb5016f24b31accf173ca204668dc2229845bf6446cea007c113349bd4d7;
 0x29c67bce04bfd020f4ff7eacab6cbde034b22fb86334675a361f059e50395311;
 0x124474b08829d9b717c50884bc895cd3f81d519859d21235d7a74450d0a9427b;
 0x2c7e28f59fe8a8a3bb2fa2b2b1e114ce283fe22a978a3df9f62a171cb1d65e4e;
 0x165c0b978b4bb646a9ff225ac4900521292be54c879882d3f11eaa3103341487;
 0x2066134bb299d9e359cb82a8380feb63b60e4b9859d9b9872edaf9152f92d4f;
 0x9372ed18ba1a774eafe1bff6deec4bc0814b0899c6196fa15a7acd15ecc5ca2;
 0x1e3a130e8caff9b5e563e8aaf84b2fc73668e351cfd28cf66f5012de61345b58;
 0x255543a314afc5a2991413228c75eae398b90576b23b6cd86128665cc3bd9478;
 0x76547449fa03845f185e61578a5a8f2683a19733fc04c73ac6a0b89bebb8453;
 0x2f98bf081e0eb78f8025c03ee9c199f2e838c51e5a0aefd333e9f7cfb38f534b];
 [0x231996b592528575567d39d00645a83b13929093bbfa00d6a661e4a690351d0f;
 0x193f32a3f839f76049c9cbf2414590698a2118e83658327c4338aa3648d8f7d7;
 0xa5da659b6fcb1a4273e1b7e3b544d2cbd362cac497afd004b8ea920fdb04bff;
 0x2a832ceed3837e742196e09491fe23e3f6e51126eab9acec96e71953102ef24;
 0x98bb2c4c6334dfea474d04cb2e9761861f6b18a8058a52b619d6227a26228a8;
 0x101749f9dd2605191c1963f25694ae267f6b44bfe2d1af34fefcb65e958784b0;
 0xc7b5e09343db5c63c110d3175d01bb498290d971b1e6dc0e9a0e9e7158356b1;
 0x116a313d00cf99dc18e21f93a5bb198018bbea4b7cdced3e4d210971dd0a681b;
 0x404c0fa1bd1f7e059054cbb87f6b5c69d11457e59f90419ce4bd10bb8a803df;
 0xc1c216af33054c497ef04381f58582298b54335f632bd62add29e08067a59d9;
 0x11cb20544f43437a688a7dcb573a7da4f8c7b4437349eedf3fce432a6f3c1653;
 0x186f160ae866e10c4be0ea7d204cd64e57337c60c40b34c3a371d753f2ff001a;
 0x1e1d5920edcfe9d6b2d0ddb2f6f741afb06590340fc07b182ea7c3ebbd933931];
 [0x4e47a72e49b9c5aa3f69f6af22fa0ab640c93fc524dd3c508486d66f079852a;
 0x235d0e71a350f1f23d9bb5182ac44ec9e4615e77801e5aadcab8336aadb1712c;
 0x1219740c424743dbbf896996f0ee7a4076ba960a57e8d7679b828479218570d1;
 0x2b501f1003e27aa809dc9e5cd84976a3b8c169c1e9c63977d7823f80d3f823be;
 0xf34db93ea8d2ad7d1eff86db5820cc7ada47bdcd8c82d01821f5c21a3ea2325;
 0x4d02ab05826fa50bcc5f9af9e396477e68542d076b683ee61b85869d4535893;
 0x2bcc82e75391be4ea9cd0f8a505f9e4f684778fc7a9b1bceb7868bb299cd2072;
 0xfe29b5bead54c5bbf426bb12844a2920884ac447906101cea9888986a030b11;
 0x1bb2091870a4fac03682fe5b1e2eb56b14ad6e48f4676fe41454bfeeb0ffd4d9;
 0xf54c9c522a5c74e0d4e0c63611a7502657575b7a963c0e786d2a761c4e845bb;
 0x160f5ac0b2481f8019e95e0b26445ba64dc03a4be8a15461496247e6ac29002a;
 0x2f3d6b8e2361166089501b9147e84ab6b09792ac17a5f080d75b3e320affc86c;
 0x1b59bb60e986194987fcea070498bcc7c93dd561ce8af5fade754ceac07b1705];
 [0xa8cb4b2bf3f0c5da671e48f83e5c1b3018f0d31200a6f19fd5195db22eef7f4;
 0x1df5c9ef694afe61bc253ae908a8f6af0a08cdb9e78a9f322c22388322f16c2a;
 0x134431128e5ffc0ab60136c5d851a11dcdd63cdcf17ad64fd77517701de675f8;
 0x3ea4e2bffe02da5977ced1f1a6e852e921abe2e015f35b36ce4bd0246c2cd89;
 0x6e03ca1146705522bb5e9dc73560eeee6b9b4bf51d48f953fbd1f006d758a75;
 0x14c499ee51925b231da17ee7b55a75f96f462e431675ee36c7be4e9b069e260;
 0x611ecd1f379a0062b05c4aedb100bc015244c6a88f1631a456cc2acca8930cc;
 0x22af37c0e4a88deae9f7fad83819910735cb4b49311e0aae11cb7534d0bcee6e;
 0x299ef95aed8c75494db82e8679fbc6d5a3d2e29aecdcf6979a9b272a607dd5df;
 0x103cc8384be1be1087b9bb47c0eb6049f85e0413f7b408f1dc2fa1e6fc4af91b;
 0x206cf4290ac984434fa774bb0f8901a233905632b793c80b1d59966e96a73832;
 0xdd85dcf08fd38d22f316d91d812cb2a884308775afa9f667c6ca80954397c86;
 0x24ce0acb522da527d3eab72865cf073d954babbed3cd1706aa69d767e9afe7cd];
 [0x18bbb002b46f2e5fec2b120faf87822ca8e77ace94e03aab5c16c4b931739dc8;
 0x1db2021eca3a3624a7d45bb16cf4a44e2af4fae0dc280030e7ebe55394f69d8c;
 0x97c6133aea8fe48f3a5fc416bdf5e46d05de0723bc49e53b9fb5e83d350c295;
 0x150ef9e932a74b8debf670080641339b12684ff5a303b2fb7c1d8d56f56ab61f;
 0x1237f44f036b2da0067a94947334e3afa2ac4cf1009896766f5b191cde284972;
 0x2d9ea99d2d237328266d59dd7e018bbd6bcc7941d9ff5f07a17baf0099f614d2;
 0x477f951e19f531b8434ad755b6783d61b679efbb87fd956e394db9c434e2352;
 0x1d8b8ba772c4cda72e8ef9b19c424d55d57251b247c632bea255271afcfc70b6;
 0x206aa2f36e32b2b06d6be48ad493d354ca7468753f526e6bd82549fc36cd4109;
 0x28da9309acca103ecf19df72a722134d530bae6c660db3c364d0ebb200c2aeaa;
 0x1b9435855d6cc4339240e9fa3819c2ff420980d6cf14721b75e4cb1fe57e118;
 0x238832e643158e96689b5803b0b77601b59bdfb4926113a3455f1ff4df6e2b46;
 0xb43b8facc43cfc067b5513abcce846504b9395cdc14df96861a528a52ae2ec5];
 [0x2bfae1b054ef2e924d75a8a01283da29103c57bad129ec8396ce274ba4524df;
 0x1a46a26691841c26109a32ae07eb584a6b8af657273cdc4d8a112dea0bcc85cf;
 0x107da0784dfb314d82859be44d37b4d2b6345c174b91651c65c98449682a5204;
 0x2b45b3be2674fd820516acd6cc6183c4fae0f7edfa9afcd02dfeeccd02bfed46;
 0x2082e9103cc45245924289111527312860f6e7ee94578f0118f4a920d0f8d525;
 0x303a9e22855d95d07e8172f3a0536d4b95142f962b006a8ab09e7bb6335e8487;
 0x2963514313f046f844f950ffea80f5e5b424b707f16599662e5a2e3668cbe5fb;
 0x4b7f8d1d5ec8bf689adf12d656b94e15b0b229c1638c9c4757faf0d18fa6433;
 0x259547168b64b2a228941a542f394a2699c081c149463dc2c3d21fd8b2e4f31c;
 0x27919dd2f9d3dc9fcbda1a23b95cf23e3630e6fd5210faca6acf4629b88e5ff1;
 0x2b9237e5941e1657efa507b892c3b8dd57fc8d52876ecb599dd5e1052b6b1f2f;
 0x202e38e669883619ecbc6a6a45368b9b9a3e9ab67efef50f896dfe48b78d3dac;
 0x262758fb3e076936995ff3140ef7d1b0a1e0fe4240a50747e2c3c120d977f3ac];
 [0x6d101b19477d1627b9542581bf0cdfab38b05cdefdcb81965c5be00d780f192;
 0xcae80cc05aedb66d6e649b057dbc5ae9759da5d7b43d5e25a400e1f92e9d1aa;
 0x12256b3b99d31d8a372986f95d66cc139dd23e935487da26b3e249ea7cbf91ae;
 0x238965d658967afa2bce50ff18cbbe535327c65b0b76e50da30739ded25eb492;
 0x23a6e143284e8f238c4b632ad78ace5b0dcd94a897cb05d1e297b4880e7433b2;
 0x24e13a38f04d5e0fc0b6b6e0f782a6a523a8b3b0127224b8e23751b9cb9f8960;
 0x9010d73677620aae1b0fa8023ff1c812313ae9c3bf43066ea60bc1ab477a7f8;
 0xa41e5a4421defd5ed7acfd48401395a409a67c3edf4c168ce3368ed944212d7;
 0x2fc7d17f3a9afc1de289ad0f94126aeec834498120629cc87c4586c627780075;
 0x1f86e3e9d147ed604c71e1fb6ef8459cfc40001bb4fc5ccc2661669b155abeba;
 0x182d8f91ee2a9a26215b35f3c0eecf8ec5cc360124cf6b903e70ca83126975dc;
 0x67d2b612d75f4f974312d04ae0fef43a35b60ef054c0f475302c55fc10bdab0;
 0xeab3f26417e6b53c532072de92d4aa78ccdf1da91660a461abb0f9fd7bdcd7f];
 [0x18af61f6184ff85f104c2bef179b3ec5a5d242dfbebe8e27a2918f620e8a5be8;
 0x195057af1319e24df1b905c6e2eb2957003cfc34b001c0e54b9dcf2ea5df6be9;
 0x1d952ebffcbedd26036c54a1e8a2828fe320adf07a286e7f2c211b47f6c3ee86;
 0x370b757ac6cdd46610eec0c22d43a543d5e0482577bbdc14e71090307b5f69a;
 0x22e076a3aa6ebfe996ba068bf5bffb17fa724338cd67f67ea25330195c628172;
 0x126851f3eadc0183288a750153910a41e074b3544f0610a51273ad3698be0cb9;
 0x361f4082b75a6ebd23f9a6e7309d8c4e7520159da23441edd631a6ac14c20cd;
 0x1abe8badb2d12353b9bb98152086a9421b7cee17761730e25ac284d6b1ed7b37;
 0x15a7e64a5a46f5973e4e82a263ef905ed64f182b2041baa00a1359e7e9c5eda7;
 0xe154ebd50db3c2864dbe1ed72b0816210851b86c353692d1744cb3372bfa72d;
 0x25528d5d31dbd77cfa6e7b1847f8e84c81c1ed5bae2a51c9e403cc754c54bb55;
 0x21f0c6b896fb14220d811441629c78f8e8e27746026220e331cceb89a0ee89a3;
 0x20addeb2afd20e752a39d2f21ebddc2772773b062922dc8dd3ba068836dba464];
 [0x11e3a7c2d5f74371beb188c6e3d7a14b33128af8ee3287546d12d7777cef70cb;
 0x2d4d35acd9f28a3e6bfd601472948293c1e4f084c714ddb1a075f2eae9ce21b3;
 0x26309b52cb55f6ea5a9030b01378f65d2e6b7a9619926d9b1b1e21cba01fa7e1;
 0x2aa84c1ef9e848a64f748b80e279ddcff871e9c4c3e2fafaaf79159b0b4e4018;
 0x2fe31b0df04f276a525b619acc4a5ba3eb58d8c321c62390febab05ecdbc798d;
 0x27c1b406bd19ed13d533550b8b621186b1fd47f671e6604680317e6638b091e1;
 0xcebcf30975b37267aedf521ee2bc753c3424dc4b6edf3984fb02ae1ead44daf;
 0x291c0da731c016c0d6c4c75387030a962bf7a2eb35e15aac02fadf530278a3d1;
 0x1216f05607e032e49038ac1458100e89ac8519a5a3cee4545b08850d8bf160e0;
 0x19ae65945a1dbed3965f2de3a39ff2d54ab1dee0f333b88fb49edb3fc9ac7899;
 0x2f996ae620d00a3d4e55ef7a6ce0b681388f1b7ff3875b725aea6eb9039d8b25;
 0x2c825ee561c4ab6a22331177999c89806fbc34518387e807c20c359739ba9eb6;
 0x754947436c3cded29a60c9e898237c2183a49db7e70e7eb73aefb4b5c693246];
 [0x2de5d6a7a27343dd0422ac71b8d409b43ccb0b672e978f8fdfd214f4d7866404;
 0x25eb2ed84c520aba164e33f0353b5131886c0fbd18e55695541512dec563a0c;
 0xa12525f0781322371fd70b0928cce6e2eaaa67b8970dcdf319df25e8019a6de;
 0x1bbf43ddb5a0b0d2845923b1ce128292359cbb313c5876fbb52f5e6b1fcb7031;
 0x23e8c3606aee818d2afa8c4465d5ecb9c45bde78dd819c0f35a620593c1f42e6;
 0x158880f5adb96dd1398128b9ff339f3d827da6463891cca129c012c06b16b321;
 0x23a1ac07351946a974c8841e92092a4ffc6aefc7fa988e3c1f7e7c87e1512a90;
 0x34c460fff28862ef7a509a1750a26ed1e5960fcb58c4f48c7d267c77e58dd66;
 0x223db18f31c85e98e1dd7b7245dddda0ff8e319bd7d1a67fdbc7eef56d667818;
 0x99b97c878ce35c957d01b43dab07f8003e2c379b41ca61a6e56a9204fb16bc;
 0x2c2b1e7c70fec2f58ca01bef5ac37cbb9471ae7914bf08df7e47dd8e3bc3ce93;
 0x4625f2258edf0262ba0647cae426a486fc801dc0b59d20ec0f4d0af8cbd23ce;
 0x239ca61a6ef7e501810aa89ab4996dbea8fbd47fd2f7a2c96a818e93a3c38c89];
 [0x227cb43b9818924f2a2588964a0ad7ddfa3df62284b4b3b10199a501ed970622;
 0x16c7c5c6161eda32c65bb347655acaa80bcc98bfc023f4ab12f5b2a899f37e3d;
 0x27e37c68a01530f092cd37c4a26dece2737868dc2c3519435e1f2cb88f07b62c;
 0x19dd1c6d45298248ad499531f33ce002505458d76178eca26298e39a62fb9501;
 0x215f5563464e2df6a8daa8c34476a465e4ee9fa0ad01fc4399b649b2e07d1679;
 0xf36d166e99139b9bfc1ac3270a3d98c4afa81bf97436076f57383da50436a5;
 0x1edd7c7deaf249e0fd3f5768aa92e9dad64118b491bcce12340c46f210b07ced;
 0x8e1741a97f6348ed6d68f4b7bc6ec8b2dbf03f426769cc779ceee4ba1beb03f;
 0x2f4aa8641ea4135031f4d97a7a2f679a8cbca562ba6aa54eae7d32ff7d04dbd2;
 0x21a0a43c88ce26effbf8b9ad668056b5b0362e5009f3d80033db473228fb7fc8;
 0x31b369d011f219e4a8fb21df9352878d93ff8035bcda834c3dcc41c3c2df85d;
 0x20a72083579059cb659952d3f2a01ed90d21002275b5ea11f209c763baa8457;
 0x19f11771049b5be81b43ca81e3611f4108a4b9dc30cd122441f74319c3adcde9]].
(* poseidon_bn128_constants_opt.rs:1313-1481 *)
Definition bn_C13 : list Z := [0x1373c771cdf15121a224f330d84b6688ef9fe0038a3bc26a28e3196578a0000d;
 0x29f9fbda3c999836017f76e121af3aca5ce78bb48fa867a6a95e5b9db387533a;
 0x1c7eb5116a20075c169b786d9dc86a24ee7a2525b565bbc262209a8cda490528;
 0x21a549eb554f0f859f61d68f1b6bbe9aa3449a6238546bbdf2a1c308c9cc52e6;
 0xb53fff701347d1b9df98b46175800e0d3250ac6d4a1afa71a349ed195873508;
 0x2129ac4742415c020db2473999b34dfdbabba3cad4713718f95e6346e1583b7;
 0x1d28f305e8b0ec88da37c8251b0c8d230b68bea9401a15f5124d64c5454bc29;
 0x1ed301e02e3fc930999fce6d3744c23596700c03720705939d61cee451faff93;
 0x2edb1832966e34eaeee0903858afedb13dbba9f7c802c83ee628530d0e26ae1b;
 0x123daaddc930c65fc67bc77ca8bf4123fe81fbd0501e8f89ac31a698756d87d9;
 0x2bcc36362c90210acf67d5fe21d53104e9d5478d057141d3b17259fed8e4a8fc;
 0x1fa928cab5938207e898e61d99c7d616269144f7900815b17095f7ff76e3c9d5;
 0x29c2f1cfa72a0fb8f53a631e84cfdf5cc18fb426c254f5a905fd3e831fc7c837;
 0x2da58609f78b29ae6889f95ea2e8ef01a6a6c2814ed02317ae9e7142a29d301;
 0x2bef1f45efbae1a4f77721631df4f6982555d05ac5f5ed215dd25939af5c1b06;
 0x69266bb89813e77b00e34743aee026a873b7e31fc6f64ed57da189c460142f7;
 0x2b7198b043ff31d915deb9d5fdd0338e5bd8028992cdc033eefb9cebf92c9f55;
 0x20ff6cb38e8d9501add93d1684e5420d1bba60394e7c02787a8deb9573878000;
 0x16afd4f19d312cc4b2568dda85d89dd7c834b05b4d8ffabf4410f15c22b77cbc;
 0x2bc96c4bd9eb8f09c17483aa57c5c05f002c6a21aeae2201e882335bedf4f1fa;
 0x1827a11b658414b98b8f76dd10bd5e0fec96568c2fe059f71999ecafbab0a00a;
 0x202d1bece537583634b6e1e70659a1bcf1afe1c7775c478c00648b437578d9a9;
 0x218b5b58b3333e735ce7c88a6e2f179e907322150a7833fb841325bde83845;
 0x117267f052b39319c4ce34bc8a543b13e80784662c208ce378ad6118fdb0ace5;
 0x2979bc493ae1eb3e0df74316cf12fdef6dd1674174a00ae9ef908b3a2df98ab5;
 0x1925313243795f90651c448c814b13f2fa988cfc8895c9a2bfa8551164461a47;
 0x309b8bc3b0ab07525a643105acedd0ae664e53332f89a185ed3d7f1da80203;
 0x2c514d1803b41345f96cadcf983dcef5551b7ebe8ff78f23ecde23ebd5a36831;
 0x23d56ffd6d38c9ba909730fbe6443cb5b4cf9a9702efdd98696652c3f2d1775d;
 0x1eb7ae2f9df6ed33760e51a351cfaa3f4aaeba7c854b85bc6e2b63cc3f2a3dc6;
 0xb3a63736983f365880bedfae6fb8fe5eea0f32e0b398e16d610d62a82407957;
 0x249f511f31c4ddeb74d919cda9133fdbc1cf2d9b66288c9ad13e02c719c39612;
 0x121d3b76e65bd665f5f5d2908435c2571441546a9504370a0f0c33de6fd7e738;
 0x1e1fd57e79cf042b1b3b883d4f4265f15f08839a8b5c3f1802ab7b62d55eb238;
 0x16fefbda0580e528dbf2648ec82d6acc114c3c1b720d56af01c542ed6d656b22;
 0x83a8b8f4854d599ee237fbea3239f9090e06c223b77d130f591036be8209dbf;
 0x2a521323dfe7e7e2cd622674f46cc5d64123113e3423406966ed06f2e7d37935;
 0x10fad028a543b9445ee6841a44434121317b9a163e423a7bd6c0852ec521e965;
 0x274bdd049a73b6677e0ff3e64a8d76d34009e467760819a9b0189a94ff14f79a;
 0x2669e29b8bd468aa3991639947dfe76fc166111d6ff1b24139d2ffff1e1259ee;
 0x12f59494b5695acd76123fec001dd777e40278b7342b34863e61dab94779831f;
 0xe45ac1f353f45ff384658f34bad47b3b03da93784b770b607d22ee036c8ff62;
 0x270d5a7fc5af9d4ffbc6edc57c91594348c60f3ca8a794d141f57c7aea7b0e20;
 0x1c57c847fdb709bfd38776164af9aae7175005861f6cce68e7179dc8eb8d59da;
 0x97bd4c74c9ef8617f364e87d90a2e4f461c57f2e7b42dc48b245973a25f8198;
 0x9399dcf5fdabe6afe6c02a3fa831bf0a4f92cce46654d7aeb4aab80067863e6;
 0xa11daa6724ecf2f75d8e368d31ed437dff1bba0acd32ba12288d4428ab66d9;
 0x95ca5b00386b675738ee39827f9ae5a43ce09cd2b7a708c526c9d478f650906;
 0x1161eb2d96d8f5e199a01fb1712c5f4b29ebc97d5de98e644474aaa34391f75f;
 0x27ca09bcc614752905359dc489829b9ca0755de8b9efc1ccc6d83477db1bd60a;
 0x2f2ddd101005b0d76d47f4440b2de8d982ffcb26416bd7acd5b1218327097968;
 0x226bb0d31a8e961ff7925de0e07d33ae63c3e806ff19f375e8e96b150ac2eb9c;
 0x1e50f8ce5e8e48a47693351bc4c95fffc274e75aad2fe7e6d607d8061e08da17;
 0x17e98bdc10062dcab33e194593186fd29f06a5a3cd95a6bf373e314047ea75da;
 0x7e6d38b28db0d587b13ac7ca4056fe27cc6e51467253b9e1b9318b181f61ad9;
 0x7a06dd6230750e3f59b57edf6b3fdd71a4a1485e2b9765bc85402de6c539e15;
 0x224bcbf9e7ad9eb63bdaa8e679c0ba67c594e4c8bebd2e06f1d736c4fa5b9c19;
 0x14e43b10484fd331ef027a94de953dd133c14e823656e2a3f7580376d90b778a;
 0x21c2c69e30546f53363e24e6032202627228f2d32c61924ff4f64b7b3e93a8c8;
 0x3fe37796dedfc13fa0160d2da3998890a3f20e8c3522c4fa717e10796f40715;
 0x2bd5b2e11cda485bef53bb4c2c654c39bebb5814b06134902858ba1c79fe0883;
 0x1db6d06d30d62c08ffc1c2249d3297734c08dc141e9ad9abcc251bf4605b3b63;
 0x350d5175824d117a97a0c758ffad0d3d23df500f097a25f8e061d79dd42aeed;
 0xf46d145eace6b1dc1bb7f218431ae9af0c9278ac2912ca102627a656be2fad3;
 0xfbd2953a1cdb40ce84ca589f711a8aae5e75c745c5ca4826f65dd2bb50813d2;
 0x2e6fee6ff51b2abf66db3ce9c23271ba35caed4e6893762161bf7283e0c27982;
 0xeb4c21214c0ce434010f1fe4733a327820e1afe53ba7233312df51615d5897;
 0x149a01e3644a9aea475d77e728a2e9826f6b935ccb5de9f060c0a05d8904a470;
 0x3051abcbd422db239b04ed4beacd3b4db8bd045b8d4ab36a872454e362f82b22;
 0x138a0119816ee4ac8015badfe5abb7114820f161375b6074205af54887e788e7;
 0x16c8e1464970e0d76c1e3c4073e63fb2e514b25858bf46adef59b1751480f452;
 0x179ae599e009a3f1027b559b07961307ef54673d52e8bf8c4f87ac5f999a9ac2;
 0x13b3518cb4a884686be5ef802fe3c9a0761950f2e5f66a469df47c4980fbdbce;
 0x52a354e6f8a8c482b9ca8fa51e4732763bda214a65fe575ff12c954a433e27b;
 0x30348154b1407f9bb3b3d8fe8decc41c770cce188d64ba7b0218515b3622fe7e;
 0x22493fbdd06dc2accec415de98a9d411e393393e648cdf86ad3efb60373da4dc;
 0x2bd33c38d67da9e28ff22b4ae3b6e0ea68c6c8b275d64408cd7c0bc7f3c20746;
 0x18ca35802730ebd5aabf25fc7cd352283442bbfa6e925e66e8344345932ec3a0;
 0x123a15b31db64480736ee720631ab0088a24167d1460be4dd420f7cd40acf2e5;
 0x1ba31fb49dbfe083d1f4210e344596a9c61e6f4bccbfeddd88f3beb168921b07;
 0x10c73167a97d9141097672c848cf3ee8116d380e6f1301778533933a078f2a27;
 0x12b2f0963b677d68900fbe2500bdfd4b532085e5cafe9db9c2e636a8ab0c98cc;
 0x1feee9a8c818254bec43c0bfea4e01ce2a7e6faa9a4dd01208770a6f0bbe7c35;
 0x2388c6a47ec73b9c198bf0ad3d5922e3598457cbca82d0b1d2cdbcacf56ae36d;
 0x1bd9b76b67a672ec982cdbaeb55e14628a4db0792bc0f52451c475cab0ecf3dd;
 0xb2ee64ddecd3f26acc1c6c44ef1643b8eb6e589d0304fea3b7b7e1e91c2f534;
 0x107f80d883fd761322467565a99dc8786e69ac197fbedb7636432ec5cfcb2678;
 0x19f0a831e164772368d5365a0107d0ae264ba97bd5160bee069f1e2b459babc4;
 0x99ab87e7b852429782bcaff58bd19649ea26b24e493b243c71d411b48e36375;
 0x18db42f8cb42180422587e68173a24cd0dd62f6b17009897541f16263a405746;
 0x2a22132453db2d68d388b700545cde863d652bdbc5f733c692a1863754fc7294;
 0x2e3f81e949bbe1a2e8a06b70e21d433a1036aa684bf39b7e933839973867ea3c;
 0x2c21f85518cc932c232aafbca1e4eccaf6d7375a80b1542828e1aff7ad8d8442;
 0x21c0239127fe8b2965a32cc7ee8d063eb792ff468703c54cdde10092fa9d922d;
 0x201c6b5b791d42b85000a1011ac52b25bad5309ef4f482e26110310001bccb4e;
 0x2db1d234cd755ea9599fe56001866bb4b711ed049227d67ddb35c03bdb8c6df3;
 0x18498b6b4ebea39d429c25e5aab1b5fc97ec880e736331814a3cdf799bfea718;
 0x1e5d12fcc0c680824e0934a64153a1dedd491ec29effb629e35a45d889028343;
 0x1ddc4b9d3159354a45944b963b54081d3584448192659625d3f06fa98181f43a;
 0x11fc72e4994e6b2e99f8b58773a5eb8ab282dd06ef0607051371bada7b80c40a;
 0x21bc7461e5160f2dc86d270fbc2c8f91605a49e5c75ac57c7ae3481bf1f4bb4f;
 0x2d16510a22095aee95dac7335895a70e0ec56a9a9b33201d94b5f7cb6fc626b7;
 0x2fdfb1134a1f54ad7dd904be3991e086e1b8e0c4d5c0eb80420da5c0fe4b0944;
 0x28646d4e0061355d5cd936c08f7e8419701d959482990a46d4cbe164badafb26;
 0x1dbb1b476c0fdd507664a1c03624038c2cf2232c87bea9e711fd32dc9150622;
 0x81dbd4fdc8779da9472fc7c3dc8b35418c3f670643b4ec8e878c256f6cc22a4;
 0x886cdaa0b431c97d8463419ac5651ff457a7c15673fb88916e94fa55f584d31;
 0x2838331687e032e9ba3fff6492c1c547f685ebd7609536770c09dbd7ec3cd2de;
 0x2621bc61696ec99cf22f64501b131655f498c95fed719edc34691e18154354e5;
 0x2549d455daeaa01b7b52782493fe1b0b7c14dfb77087c9151b4ca36f15306ac9;
 0xa4c236eb53846ff3488a5bcf59fe22252f78a20e953516f22c88b4c06e7f4a7;
 0x10c077e94f0d3852b3e3c2b14eecba18c27b52cefd6fb1a1ff6a26ef95e41815;
 0x2eb187c8e8b5d69de44971a4b370ae917ecdd0286b75560c1d3036ecc54b196b;
 0xb395bd209a15083fb3a580abaa376a1fa397c54f91cf8a0c141ec7b4d7c1e97;
 0x2a1aa4e24d835d8a3f9ead7881aa391fa930752f8c9c1a448d53307ff930d8bc;
 0x1a3959bfaa6e5ec9fa45a9939b47676ed773b545d372e5f8403ce000528605ad;
 0x31eea5b773a9e18aa6a29863ff6c51130f4e76974071207bbca7f238e4910e9;
 0x109a8a86778d80cfdf86b4d6bbb1e57e218ab8fd8495f1fe051b576ff2e77c98;
 0x361d334bf2e907948c05b6252bff7903afddc738f2952a0dc893b09fb034ecf;
 0x11f636b7d7ee19603bd7eda90e668b7ecb2399750d002d9cd2978364b632ea0b;
 0x23af2f1d6a7dbe734d6006377fe06a202a5482cdf7cf324bff2c3eef417e8d9e;
 0x20057e0887d089856cd5bcdebb9e75b12474add58e57e3a77a26cb6cc36bb61c;
 0x2657371dbdb26288e4a31975410dd5772003e2255a15e5419f11e97da00aa5e2;
 0x149681e3e7671ece7381c6981fcfb46ec93264cc242f9a6140b3344aa641758d;
 0x4483482a502545fce490d73674becc29dec91db3a6721869a92856252f5ebe3;
 0x1afb1e247f5795105296f8f075ebc831ede8b5128e378bfc374343ee6f93197e;
 0x23140be54f97f6d1cc5ba00847848e4fc973656baa56ab3e1b754cc12a296bbe;
 0xae6ffce46e6c0bc0ce6341f9d308c792436f0a07142988a937db3fd8a333539;
 0x129231c0dfad986f9c0c2f9868b00c22b314e22b24b55a438770b320ef193ea7;
 0x1d62b56618a967c7d128e45a28062fe7f0bce6dc55083b58374ab6806e01573a;
 0x17e3794052d48c4aa936c5e189fde01b8bb4607fd478b67fdbbcad3e8aa9166b;
 0x24af4f43a91c5c51c6b2f3f44eca59bdc79ac86b06ca092cff9fc7d9c4691fb3;
 0x215075ce41bd685be3c97d2bc28bec174421398024a8bbe4d9122008e6e027c1;
 0x10ff29fe3e761d9f78518eb60b2a1daeb394753487490c9f5ef937df3b87699b;
 0x160ff9e43a764ba2280d5ff675a9db049a29e7924f5ba24583b1d6d90caa0324;
 0xad301157c28a1200715676e5ab5b2469fa39559c1a847f7787abf487d828055;
 0x3409e3a83bbf52d16fef10fbbeebbb40ba299ef770e3640651a48602f13d108;
 0xb1232364d87cdbc709442909811d0a0241d0d8b7933b59471799d6b30a58da4;
 0x195dcc72dd9f2629db85af3e0c9a3ff52fed868038cb27103d9f30c8c70e1fbc;
 0x192d2d9e31fb65b409ab273e7e2b050c1bff596ae56ca4687ff8e86ba8bc27af;
 0x2ad9eedb67e8bf182bb967045b906afce866e00258a320380a709b818521bf3b;
 0x2ddfe92956df2e751715ede80573cfa5308b46be5fd0f77def8a519f113a4107;
 0x1ef0dac6020d7b376e6f0fa82187820a0a4d8be7a8effda342f7f8806565f2a8;
 0xe4d6efe23c1496d8275f8a4dd536bf988a2c8ba2d2beba328f28606a4ca0f91;
 0x185b30ee2d3a166f2f59a03c7ee9f206411f74f777873b92045b6c128ff84202;
 0x19ea7d6275a6dd167757942770dac2861057e16a988d2e93e4f61849d8427aa4;
 0x23c3b4f5e49e16ae69e639b956d48ad6ba696f243a669aab13ab2c2855e1187f;
 0x29037d64b549d1c9ec4524ebbedb8069cb23218bef3cda811134b36d3551ddc7;
 0x2ea8637b89b798a2f731d98f2ab89ae9814f18deaa7effcc9633fe829a9d109b;
 0x2bb4bf36b15be77b7374a026352644b8e70b1ac9516eb87eba7672ecd03f1202;
 0x1006f07533b6e5f33d613b89b858bb6616c18f8478f225af2f4e3d726780cea8;
 0x1749f416df7b4f43257d9b8555e540bb0ad0d7c8ab0a4ae1296021da0d90ec59;
 0x26c86b58437b04557a96cc74b511dbda00e9c4c57bb86c15d49bce318da8b592;
 0x2679dc5e56ae1f6a54d38287c7ed606d0d9505a5cad5a0699b09041571c4560a;
 0x133eab2d7a718f3f741eb10e973bc5e29a021e83f6442418a832b091bc2d6136;
 0x1684a4b71cd72ec3cbee67151c638d5588e3705820c468c289c52e73d69a8fa0;
 0x17cb936bca97a37f63732c01e6c40f6807360cdb73f62d792eb910e034b4041f;
 0x1bf4b473f0c77aa5ac94a46972216b339d99c933a8f5034044b4b535adc388a7;
 0x2c6b76a42a2fd9fc8105378de5176d60c2f8129cdcca89fa0b00f3edc64e079b;
 0x2893d0cb426295edce9b5506b56a2b867eaf48b08c5242888ef79766f8d9aed2;
 0x192d74bf58f3dfad901612983c6bcc753902e2241a371f9880e351150e68292b;
 0x1bf69bb66db73ef6a0e04689e9698896ebed84d97966838113f5df5f5710736d;
 0x1f8201a8020ba29e8521a1a0cd3bff50603daafaf084f0373f2edb68fee7308d;
 0x2fc51d7afa548b449f40ee7c48386655db021f9e34e143c51b1382399bbf6e4c;
 0x1f4e909114c65d62e1a1e466d4968ba9f6fa612578d474e25cc1ea13888f360f;
 0x2957f8aa51d126b9961950fd72e1c7224668a359da4e5c0bf761d49913d147ec;
 0x1a80f9577c8384aeb8889b63361078284ef552c62d2cc0880667e85f01d0333e;
 0x1de416e08ad386d654b37fd2b61eadb5b555e0fec1b7b09d8435bee97e57b0e1;
 0x1ba2ce3d6e352d0643b2d3c5c7c023b6d1777f246278cfe6e1654e9e5413b535].
(* poseidon_bn128_constants_opt.rs:3078-3270 *)
Definition bn_M13 : list (list Z) := [[0xd064dee824928d39f2a8be7d2fa583223c33995784d228839adde2559592592;
 0x2d8c70035731ad9efba92821a88119f6b8183a362be641729a93d6a327c03809;
 0x7b620c8a78e09e49ce547aa783aa78f3e4594c49ab3dd6f602bc6c0351d823f;
 0x231996b592528575567d39d00645a83b13929093bbfa00d6a661e4a690351d0f;
 0x4e47a72e49b9c5aa3f69f6af22fa0ab640c93fc524dd3c508486d66f079852a;
 0xa8cb4b2bf3f0c5da671e48f83e5c1b3018f0d31200a6f19fd5195db22eef7f4;
 0x18bbb002b46f2e5fec2b120faf87822ca8e77ace94e03aab5c16c4b931739dc8;
 0x2bfae1b054ef2e924d75a8a01283da29103c57bad129ec8396ce274ba4524df;
 0x6d101b19477d1627b9542581bf0cdfab38b05cdefdcb81965c5be00d780f192;
 0x18af61f6184ff85f104c2bef179b3ec5a5d242dfbebe8e27a2918f620e8a5be8;
 0x11e3a7c2d5f74371beb188c6e3d7a14b33128af8ee3287546d12d7777cef70cb;
 0x2de5d6a7a27343dd0422ac71b8d409b43ccb0b672e978f8fdfd214f4d7866404;
 0x227cb43b9818924f2a2588964a0ad7ddfa3df62284b4b3b10199a501ed970622];
 [0x2b2ff5f27531b6f3d6a85d75e3e08f3a2f0dac3680a6c26d55ecbf803ca80569;
 0x9ef3492ad19dd1d0bfbeb191330a880ee7933c9d3b36bb5fa02283bae5d605e;
 0x27d6bd18703d7ca92aa24076d3187b6c0028d0b6213d9e5d2c66115237a19051;
 0x193f32a3f839f76049c9cbf2414590698a2118e83658327c4338aa3648d8f7d7;
 0x235d0e71a350f1f23d9bb5182ac44ec9e4615e77801e5aadcab8336aadb1712c;
 0x1df5c9ef694afe61bc253ae908a8f6af0a08cdb9e78a9f322c22388322f16c2a;
 0x1db2021eca3a3624a7d45bb16cf4a44e2af4fae0dc280030e7ebe55394f69d8c;
 0x1a46a26691841c26109a32ae07eb584a6b8af657273cdc4d8a112dea0bcc85cf;
 0xcae80cc05aedb66d6e649b057dbc5ae9759da5d7b43d5e25a400e1f92e9d1aa;
 0x195057af1319e24df1b905c6e2eb2957003cfc34b001c0e54b9dcf2ea5df6be9;
 0x2d4d35acd9f28a3e6bfd601472948293c1e4f084c714ddb1a075f2eae9ce21b3;
 0x25eb2ed84c520aba164e33f0353b5131886c0fbd18e55695541512dec563a0c;
 0x16c7c5c6161eda32c65bb347655acaa80bcc98bfc023f4ab12f5b2a899f37e3d];
 [0xb658849ce620bbeeff233b7d12258015ea9f87a5390f5614981eb6e4cb4a5fa;
 0x1458de516a534190c5550c6a1bed3af535c38b242eb9291373096ec60e39c1f1;
 0x2969eb5016f24b31accf173ca204668dc2229845bf6446cea007c113349bd4d7;
 0xa5da659b6fcb1a4273e1b7e3b544d2cbd362cac497afd004b8ea920fdb04bff;
 0x1219740c424743dbbf896996f0ee7a4076ba960a57e8d7679b828479218570d1;
 0x134431128e5ffc0ab60136c5d851a11dcdd63cdcf17ad64fd77517701de675f8;
 0x97c6133aea8fe48f3a5fc416bdf5e46d05de0723bc49e53b9fb5e83d350c295;
 0x107da0784dfb314d82859be44d37b4d2b6345c174b91651c65c98449682a5204;
 0x12256b3b99d31d8a372986f95d66cc139dd23e935487da26b3e249ea7cbf91ae;
 0x1d952ebffcbedd26036c54a1e8a2828fe320adf07a286e7f2c211b47f6c3ee86;
 0x26309b52cb55f6ea5a9030b01378f65d2e6b7a9619926d9b1b1e21cba01fa7e1;
 0xa12525f0781322371fd70b0928cce6e2eaaa67b8970dcdf319df25e8019a6de;
 0x27e37c68a01530f092cd37c4a26dece2737868dc2c3519435e1f2cb88f07b62c];
 [0x118132fbc1cd83f95167cb4473d54c6bd2c417e2782e5efea16e72d47b48b70f;
 0x136ef2515955ff6619498fac59424816189f896ac0ed69b59854d105df47c4b4;
 0x29c67bce04bfd020f4ff7eacab6cbde034b22fb86334675a361f059e50395311;
 0x2a832ceed3837e742196e09491fe23e3f6e51126eab9acec96e71953102ef24;
 0x2b501f1003e27aa809dc9e5cd84976a3b8c169c1e9c63977d7823f80d3f823be;
 0x3ea4e2bffe02da5977ced1f1a6e852e921abe2e015f35b36ce4bd0246c2cd89;
 0x150ef9e932a74b8debf670080641339b12684ff5a303b2fb7c1d8d56f56ab61f;
 0x2b45b3be2674fd820516acd6cc6183c4fae0f7edfa9afcd02dfeeccd02bfed46;
 0x238965d658967afa2bce50ff18cbbe535327c65b0b76e50da30739ded25eb492;
 0x370b757ac6cdd46610eec0c22d43a543d5e0482577bbdc14e71090307b5f69a;
 0x2aa84c1ef9e848a64f748b80e279ddcff871e9c4c3e2fafaaf79159b0b4e4018;
 0x1bbf43ddb5a0b0d2845923b1ce128292359cbb313c5876fbb52f5e6b1fcb7031;
 0x19dd1c6d45298248ad499531f33ce002505458d76178eca26298e39a62fb9501];
 [0xb5944768d61c1b3562a5749f4f06c4dd085bb562b838d7e2ef14a21fdf524c0;
 0x18cbfde0cd21c183797a2f089594a81cd828f3b0742371ed02eb83fb0064dd43;
 0x124474b08829d9b717c50884bc895cd3f81d519859d21235d7a74450d0a9427b;
 0x98bb2c4c6334dfea474d04cb2e9761861f6b18a8058a52b619d6227a26228a8;
 0xf34db93ea8d2ad7d1eff86db5820cc7ada47bdcd8c82d01821f5c21a3ea2325;
 0x6e03ca1146705522bb5e9dc73560eeee6b9b4bf51d48f953fbd1f006d758a75;
 0x1237f44f036b2da0067a94947334e3afa2ac4cf1009896766f5b191cde284972;
 0x2082e9103cc45245924289111527312860f6e7ee94578f0118f4a920d0f8d525;
 0x23a6e143284e8f238c4b632ad78ace5b0dcd94a897cb05d1e297b4880e7433b2;
 0x22e076a3aa6ebfe996ba068bf5bffb17fa724338cd67f67ea25330195c628172;
 0x2fe31b0df04f276a525b619acc4a5ba3eb58d8c321c62390febab05ecdbc798d;
 0x23e8c3606aee818d2afa8c4465d5ecb9c45bde78dd819c0f35a620593c1f42e6;
 0x215f5563464e2df6a8daa8c34476a465e4ee9fa0ad01fc4399b649b2e07d1679];
 [0x2b04d6ffbaf7144012d92c5c6212803c0b5bcc0d7b1950b889d1fa6f3e56445a;
 0x22757da9e822345297bd060a3f71bb1e70ce977049c393235035677e84357314;
 0x2c7e28f59fe8a8a3bb2fa2b2b1e114ce283fe22a978a3df9f62a171cb1d65e4e;
 0x101749f9dd2605191c1963f25694ae267f6b44bfe2d1af34fefcb65e958784b0;
 0x4d02ab05826fa50bcc5f9af9e396477e68542d076b683ee61b85869d4535893;
 0x14c499ee51925b231da17ee7b55a75f96f462e431675ee36c7be4e9b069e260;
 0x2d9ea99d2d237328266d59dd7e018bbd6bcc7941d9ff5f07a17baf0099f614d2;
 0x303a9e22855d95d07e8172f3a0536d4b95142f962b006a8ab09e7bb6335e8487;
 0x24e13a38f04d5e0fc0b6b6e0f782a6a523a8b3b0127224b8e23751b9cb9f8960;
 0x126851f3eadc0183288a750153910a41e074b3544f0610a51273ad3698be0cb9;
 0x27c1b406bd19ed13d533550b8b621186b1fd47f671e6604680317e6638b091e1;
 0x158880f5adb96dd1398128b9ff339f3d827da6463891cca129c012c06b16b321;
 0xf36d166e99139b9bfc1ac3270a3d98c4afa81bf97436076f57383da50436a5];
 [0x29be2a42834ae32de3320fb0ee46b4c102a3d1ae44c5dce152fdeab5450c9c44;
 0x1622805125ddf344c18e351d11e82291618b975822ad0c903efbeada5a51d44f;
 0x165c0b978b4bb646a9ff225ac4900521292be54c879882d3f11eaa3103341487;
 0xc7b5e09343db5c63c110d3175d01bb498290d971b1e6dc0e9a0e9e7158356b1;
 0x2bcc82e75391be4ea9cd0f8a505f9e4f684778fc7a9b1bceb7868bb299cd2072;
 0x611ecd1f379a0062b05c4aedb100bc015244c6a88f1631a456cc2acca8930cc;
 0x477f951e19f531b8434ad755b6783d61b679efbb87fd956e394db9c434e2352;
 0x2963514313f046f844f950ffea80f5e5b424b707f16599662e5a2e3668cbe5fb;
 0x9010d73677620aae1b0fa8023ff1c812313ae9c3bf43066ea60bc1ab477a7f8;
 0x361f4082b75a6ebd23f9a6e7309d8c4e7520159da23441edd631a6ac14c20cd;
 0xcebcf30975b37267aedf521ee2bc753c3424dc4b6edf3984fb02ae1ead44daf;
 0x23a1ac07351946a974c8841e92092a4ffc6aefc7fa988e3c1f7e7c87e1512a90;
 0x1edd7c7deaf249e0fd3f5768aa92e9dad64118b491bcce12340c46f210b07ced];
 [0x1946fe9de0a943d5a716eac08561cd91f9031fec82da9ab72883c7b218b11eb7;
 0x29765d8cf77619a580658d127fb6faa44d6c70a0f4d65dbaa960754b4195d9fe;
 0x2066134bb299d9e359cb82a8380feb63b60e4b9859d9b9872edaf9152f92d4f;
 0x116a313d00cf99dc18e21f93a5bb198018bbea4b7cdced3e4d210971dd0a681b;
 0xfe29b5bead54c5bbf426bb12844a2920884ac447906101cea9888986a030b11;
 0x22af37c0e4a88deae9f7fad83819910735cb4b49311e0aae11cb7534d0bcee6e;
 0x1d8b8ba772c4cda72e8ef9b19c424d55d57251b247c632bea255271afcfc70b6;
 0x4b7f8d1d5ec8bf689adf12d656b94e15b0b229c1638c9c4757faf0d18fa6433;
 0xa41e5a4421defd5ed7acfd48401395a409a67c3edf4c168ce3368ed944212d7;
 0x1abe8badb2d12353b9bb98152086a9421b7cee17761730e25ac284d6b1ed7b37;
 0x291c0da731c016c0d6c4c75387030a962bf7a2eb35e15aac02fadf530278a3d1;
 0x34c460fff28862ef7a509a1750a26ed1e5960fcb58c4f48c7d267c77e58dd66;
 0x8e1741a97f6348ed6d68f4b7bc6ec8b2dbf03f426769cc779ceee4ba1beb03f];
 [0x1af3ca6240a55aba55df8e49835b92fa17e39ad5701ef70f8144109f894bf1d0;
 0x2bb0b6b08fc1bd11070edc42f23e807b82e8b88ef70355dfc74e096a7ff381cb;
 0x9372ed18ba1a774eafe1bff6deec4bc0814b0899c6196fa15a7acd15ecc5ca2;
 0x404c0fa1bd1f7e059054cbb87f6b5c69d11457e59f90419ce4bd10bb8a803df;
 0x1bb2091870a4fac03682fe5b1e2eb56b14ad6e48f4676fe41454bfeeb0ffd4d9;
 0x299ef95aed8c75494db82e8679fbc6d5a3d2e29aecdcf6979a9b272a607dd5df;
 0x206aa2f36e32b2b06d6be48ad493d354ca7468753f526e6bd82549fc36cd4109;
 0x259547168b64b2a228941a542f394a2699c081c149463dc2c3d21fd8b2e4f31c;
 0x2fc7d17f3a9afc1de289ad0f94126aeec834498120629cc87c4586c627780075;
 0x15a7e64a5a46f5973e4e82a263ef905ed64f182b2041baa00a1359e7e9c5eda7;
 0x1216f05607e032e49038ac1458100e89ac8519a5a3cee4545b08850d8bf160e0;
 0x223db18f31c85e98e1dd7b7245dddda0ff8e319bd7d1a67fdbc7eef56d667818;
 0x2f4aa8641ea4135031f4d97a7a2f679a8cbca562ba6aa54eae7d32ff7d04dbd2];
 [0x81f58a91a4e0d100e0369fdd81a190035342fd0677ee1bf5215e47f8e58c2c3;
 0x4951e747b7ae6b99d9250108c5d2b70181a93ff1d4bf723781e1b938029827c;
 0x1e3a130e8caff9b5e563e8aaf84b2fc73668e351cfd28cf66f5012de61345b58;
 0xc1c216af33054c497ef04381f58582298b54335f632bd62add29e08067a59d9;
 0xf54c9c522a5c74e0d4e0c63611a7502657575b7a963c0e786d2a761c4e845bb;
 0x103cc8384be1be1087b9bb47c0eb6049f85e0413f7b408f1dc2fa1e6fc4af91b;
 0x28da9309acca103ecf19df72a722134d530bae6c660db3c364d0ebb200c2aeaa;
 0x27919dd2f9d3dc9fcbda1a23b95cf23e3630e6fd5210faca6acf4629b88e5ff1;
 0x1f86e3e9d147ed604c71e1fb6ef8459cfc40001bb4fc5ccc2661669b155abeba;
 0xe154ebd50db3c2864dbe1ed72b0816210851b86c353692d1744cb3372bfa72d;
 0x19ae65945a1dbed3965f2de3a39ff2d54ab1dee0f333b88fb49edb3fc9ac7899;
 0x99b97c878ce35c957d01b43dab07f8003e2c379b41ca61a6e56a9204fb16bc;
 0x21a0a43c88ce26effbf8b9ad668056b5b0362e5009f3d80033db473228fb7fc8];
 [0x22a852af90680a8ca9688b71ed27c157d02b406bd6c7fd8121d7c7793ad2305d;
 0x17780b9469e81ca70c7cbb4347e7fb40c63ef68f3dde51d04cb47b3b83fc299e;
 0x255543a314afc5a2991413228c75eae398b90576b23b6cd86128665cc3bd9478;
 0x11cb20544f43437a688a7dcb573a7da4f8c7b4437349eedf3fce432a6f3c1653;
 0x160f5ac0b2481f8019e95e0b26445ba64dc03a4be8a15461496247e6ac29002a;
 0x206cf4290ac984434fa774bb0f8901a233905632b793c80b1d59966e96a73832;
 0x1b9435855d6cc4339240e9fa3819c2ff420980d6cf14721b75e4cb1fe57e118;
 0x2b9237e5941e1657efa507b892c3b8dd57fc8d52876ecb599dd5e1052b6b1f2f;
 0x182d8f91ee2a9a26215b35f3c0eecf8ec5cc360124cf6b903e70ca83126975dc;
 0x25528d5d31dbd77cfa6e7b1847f8e84c81c1ed5bae2a51c9e403cc754c54bb55;
 0x2f996ae620d00a3d4e55ef7a6ce0b681388f1b7ff3875b725aea6eb9039d8b25;
 0x2c2b1e7c70fec2f58ca01bef5ac37cbb9471ae7914bf08df7e47dd8e3bc3ce93;
 0x31b369d011f219e4a8fb21df9352878d93ff8035bcda834c3dcc41c3c2df85d];
 [0xb27ba82a0ffb98368981736ae927a227828985c00c3e5df8c1276b1001089a1;
 0x1913d51d9c71d042bfbf649d9e6e6ea5fdd82b4fd3173ff2fe02b85582528912;
 0x76547449fa03845f185e61578a5a8f2683a19733fc04c73ac6a0b89bebb8453;
 0x186f160ae866e10c4be0ea7d204cd64e57337c60c40b34c3a371d753f2ff001a;
 0x2f3d6b8e2361166089501b9147e84ab6b09792ac17a5f080d75b3e320affc86c;
 0xdd85dcf08fd38d22f316d91d812cb2a884308775afa9f667c6ca80954397c86;
 0x238832e643158e96689b5803b0b77601b59bdfb4926113a3455f1ff4df6e2b46;
 0x202e38e669883619ecbc6a6a45368b9b9a3e9ab67efef50f896dfe48b78d3dac;
 0x67d2b612d75f4f974312d04ae0fef43a35b60ef054c0f475302c55fc10bdab0;
 0x21f0c6b896fb14220d811441629c78f8e8e27746026220e331cceb89a0ee89a3;
 0x2c825ee561c4ab6a22331177999c89806fbc34518387e807c20c359739ba9eb6;
 0x4625f2258edf0262ba0647cae426a486fc801dc0b59d20ec0f4d0af8cbd23ce;
 0x20a72083579059cb659952d3f2a01ed90d21002275b5ea11f209c763baa8457];
 [0x4b46526207edc70a0d23c8438bc49a365635552dee240661a2cdeef966f20f6;
 0x2a9e342a56c8b6466d3fe533b89f1ab441b62dff3153d3ae6500c2c3be6365e8;
 0x2f98bf081e0eb78f8025c03ee9c199f2e838c51e5a0aefd333e9f7cfb38f534b;
 0x1e1d5920edcfe9d6b2d0ddb2f6f741afb06590340fc07b182ea7c3ebbd933931;
 0x1b59bb60e986194987fcea070498bcc7c93dd561ce8af5fade754ceac07b1705;
 0x24ce0acb522da527d3eab72865cf073d954babbed3cd1706aa69d767e9afe7cd;
 0xb43b8facc43cfc067b5513abcce846504b9395cdc14df96861a528a52ae2ec5;
 0x262758fb3e076936995ff3140ef7d1b0a1e0fe4240a50747e2c3c120d977f3ac;
 0xeab3f26417e6b53c532072de92d4aa78ccdf1da91660a461abb0f9fd7bdcd7f;
 0x20addeb2afd20e752a39d2f21ebddc2772773b062922dc8dd3ba068836dba464;
 0x754947436c3cded29a60c9e898237c2183a49db7e70e7eb73aefb4b5c693246;
 0x239ca61a6ef7e501810aa89ab4996dbea8fbd47fd2f7a2c96a818e93a3c38c89;
 0x19f11771049b5be81b43ca81e3611f4108a4b9dc30cd122441f74319c3adcde9]].
(* poseidon_bn128_constants_opt.rs:5200-5392 *)
Definition bn_P13 : list (list Z) := [[0xd064dee824928d39f2a8be7d2fa583223c33995784d228839adde2559592592;
 0x5da987f17a176320a821339189d24ff783be07f5a6adba84ea72fa0d7faa9a1;
 0x142b410fdf81d2489b47702708422b35a9c6c3580144e7f3e94b971bf079585e;
 0xb98437a312150d8171b81b1891f3cfc75b9d14473319a77c7043d8d2ec320bf;
 0x2f88cac82b777c1c7b751129e0bc1d038481129c546e80007a6a6b73c52c7f4;
 0x2b37af1db29d45113ebe8892bd41ba43e82d045eeefca95390f4a7f816639416;
 0xe0fcfee5bd6119ea196992bc58dfcffba632cb20e07d9bd7f1f4c0738edf767;
 0x1f801f49cc72b3cb1ad6d83474b3e98cc9ab427ac9d1807de151ff591c2d98f9;
 0x5aba81d049688ec509fbf12aa240297e0a4cfbeb91c87e4d1d72bac8acb33ae;
 0x1efaed0a28bad9712571c0f7200ed332ec1342c08a9270774ed84817ffe8943d;
 0x2765f7a0abe74654c9182787a7d252f964c3e38c946a1f459579923b061b206f;
 0x540383aee2f7779742ca518ed4d4d752980f2b5dff48339c128acb79daf88e1;
 0x198d160f1f80e78fd1e93c5244d636d72185966e93e62dcd0fa8cad1b772f781];
 [0x2b2ff5f27531b6f3d6a85d75e3e08f3a2f0dac3680a6c26d55ecbf803ca80569;
 0x20dcb39566362206d4b38ed042277d966f03092b6910f3a05e5b1c3071f4a070;
 0x2e3c5d5b931ba49c99edded32e4f404eebef7eb08ca9668d82c912cb5d428585;
 0x11c900f3b1c7732081074d0a58091de7f826a4f106a930899d3798c6b02d7735;
 0x2cfc4c4f3575a5f8bf5f2ef6b518a47fac9fe853558d584ede340b5e32eff61c;
 0x7ba6d2ece419d75b37c87da9b00fd277259b4232542eaac3d6c7d85c8677a21;
 0x2ad1869717ab4c539dac1f950998c537d101504b008b46b47d239eed0702f8a9;
 0x6b21b6e86693de4b43f26771aa347307be78fc9585a91fc28b6f0f802850576;
 0x1e54ea10d6b7cf0607b5224797eafc3b651b492aa74c92ae9a70a692a1965e2;
 0x23b47244bbd00be19b1c8046145626bac795b4ba22beb692810bdff4794ae97;
 0x16ba1b0ff54dacc9d88f85fa6bb69988a0633a3998eff403bd55f352a195192c;
 0x2fca163547569280e953a94133047f3f9281b220b0c6334645e432143edbaa4;
 0x262cc29dc7439873e862e94b1948eaef1068da52d8bd493fe44a9e48b47b88de];
 [0xb658849ce620bbeeff233b7d12258015ea9f87a5390f5614981eb6e4cb4a5fa;
 0x2816fae6fcd39053c09df75bc62f75875e635472e790e295aaee0c8158961174;
 0x5849562006496b3a32966a1a53d29f1c667a80e69e44993133184456ecc57a3;
 0x23bdb40dc2a5072c7d0cde89e1baca83c53b963f4129487c1a68ffa36cfc46db;
 0x2283767ef21ee3be90dac5aa35e2d5c39f7bdae014bd63b63039d19b042fb575;
 0x1a2dc35b3c29c763895e67b7ca3ebb9c34484431cd2d1080544cee9d03194c13;
 0xdf23b54c9ee2fd50b58ae1043cc7e0dc3a11f183ee0f815fe9a97caf186033;
 0x160a65dbda0b6f118906dc50e0d5a8e64ce7765f4327700e11e753d7386e7392;
 0x24b39cab2a81551d5d529ed57986b8ecded02a7650eedf67925eb9efad60dc20;
 0x226f8e8bfff7dcdcd1980eed6f88a2566cd997d4f7bec484ef25bf8ee86eba7b;
 0x2aaa2c1202b74f2dab3f58dbdc95eafd2ea49d5e3abb47f3b33cbd4ea13474c6;
 0xfaa06fba9421c021c6133baf90169f65dcb46cc47ee532989d5ced54155f34f;
 0x17af1f8b71c3656ec7d3262406399866d91470e4b912040132b923f891e63720];
 [0x118132fbc1cd83f95167cb4473d54c6bd2c417e2782e5efea16e72d47b48b70f;
 0x1df6a4c43bc5c69763183d36c26b6b37fbd5e4252de4b5c3c0da6b81d2bc00e9;
 0x2fcd5953b4af9a49fd90b23229198d09fc8fc8ceafdbb53599b133d01023ef76;
 0x24c66b7856c9a5d78819772b35eef0de88ae882c19af36039f785a48a75f450b;
 0x1692394c144aece305a7f02749a63a355ed6fe024be532af2152a0d53d590a30;
 0x2e0f2af806c4c37a9cee0b9d31be62616a7dc6eba5e51ed9854c1be1d9ebb9ed;
 0xfda8fed741c4382c69bc3f63c48c052ef784b8f67ad573451a418f2f6401127;
 0x1734a0338c0a652d147ea6c26feaa378580ac91d0c8801b3b06a4f50b580d01;
 0x239102aa73485d2a291639612b53c10c8a729f09dbf45984e80688332199990d;
 0x15c8103fc31eaee1fdcceaf57ff198cea6eeba5237969b036135084cd15e1b57;
 0x1ce8ba9e5353bc50ec8a7cada1fb238a643d6d1c03449a5ad1b6826807821747;
 0x13cc546736c859756b596bacedfd88344e4cfe16abcd44dfabf1234df19fb7e0;
 0x1dcecb2dc57bd3cb8ed9aeae4fbae4f40e7ffc8dedb72e34c84a9318d9863678];
 [0xb5944768d61c1b3562a5749f4f06c4dd085bb562b838d7e2ef14a21fdf524c0;
 0x251e1806f1951c2a33eb6ae39afdf9be6b971da924ae9920246d98bc435d9c59;
 0x2995212cf7dab0d9fe609ab9e441218c5181d91e3e2f6c5b6a07800c8698fede;
 0x23f10d62357467c7e71eaccb73ec7cd5c44d69abfb91849559009504f81aa57f;
 0xd435e4564d33704bb176ee01b59499df851abc0dd5bbd64b3ebdf9635ca39a5;
 0xffb4165b1b9e112cd77c00ea81f751e9a2d46e3071e5bd3007fc3a987e842e;
 0xc55394f0fbacf892378bbfcf44b8e9475af7e5d7e2373b65c205da9b1b8188d;
 0x1563ed24f45a7e60b65a0379df8dc871aaab1b5cbdb24f9f675daeb6fa138423;
 0x270dd42f73034ebbfbce9182a6e41fb80cdaa78c06605db3c342c0edcc22e577;
 0x11293baf366c075e3cf66c9f14a4899e1d9807460f30af948e44c06d43d37653;
 0xdbe92f1d5f635e182354a066756bc119c14060543e78a467507983a74f9707a;
 0x22b8d93d76a89bc36f0b5d6a1ec3c6053510622713e2b833499ba773dcc0c217;
 0x23b478d2e4e21e478ea7c859da3dfa7229f6a2fa20a2ef1f406d9fb0a7f62f28];
 [0x2b04d6ffbaf7144012d92c5c6212803c0b5bcc0d7b1950b889d1fa6f3e56445a;
 0xfdaef081ffa41b2a3c6f8f4c23a5980f85b3301bfc3c342c938199cf71aeb64;
 0x33a135f38b760028fbd4b2270791912b0e3008c2007a89b30621086f994879d;
 0x2e1eb1ea7a1684486cfcfcffff8c926be2670f226bd883d11591addbea75adda;
 0x28bf473bec9d8842b84cdf474a435da4108204b09ca3512d6ef73c19d0be40b3;
 0x2edb397ae478291b9f48edd50660fbc1b5d7d906947fdddc255ba787d02b0366;
 0xfa157820a600d4a78390b8beac81aaf6e8d1607d7f4eab0afa5d7ee6abc605b;
 0x283fa69d06b072eb8b27c7c655b71caec057124aa1669240971c1d04fa881c3a;
 0xeaf5ba40262c5feb646c4f32ebe7cd2a1ae38a83c48a04e0c1d452730d63058;
 0x2306577578a3acb6a7c070ef0649b6eb67c58224662895d470542fff984f5570;
 0x2f204614994166d0a9fabf6bf5db5fc3daf0bc16645f0f202989de9df97c1161;
 0x2a93e968eafe2ef56b6e5ef823e29d96b551221e994f08806f148c8d318e7920;
 0x2f4f684d1f698b3aef34a939ddab2b80696f2246a13250f8978d597a6a20e202];
 [0x29be2a42834ae32de3320fb0ee46b4c102a3d1ae44c5dce152fdeab5450c9c44;
 0x2ec317d402fd363380a63c205dd966e0a9fdadd78b8b9485273b6902b17ed49;
 0x1ac21ee4c3af5f8d60fb78d0c764adcfe0c20463b3d0abcd3b602409f2770743;
 0x882e85d15875eca350c4e7c4e59a820e47a8381321dc5c7f8f78aa3e1aa68c5;
 0x290075bb9d48ea0db89e805f26952bcdb6f96b1507580b45cf56e18c21871cb6;
 0xdc29c413aa32c2199a2de5e9605e1129b1e681163b80f82cf846ec5f54377fd;
 0x2dced935f82c932e7a2a837e2816cac70bf50da3aadafb7f8136bf973b0d3987;
 0x104de5f8e59f98489ffa42926a8aa9701c422e4f13abe90507106f2a5a60f0eb;
 0x23b7b05c996c963eaec7c5817eae6d0bfc78c01d9c5da84ef4acde5204c4997d;
 0x177a7ae9bc58e64a1b3baa1975c6824cc81d32302740709b0c6fac0ed9fc1958;
 0x1552bf00f696b1ec39debdba504f79ea16c9ac75458588eb8a879908c80c22c7;
 0xbc4a8170c368a03c40fdb65123bcaacdec1f9ab057747d5a2562d28f4785ccf;
 0x2593132f444b3731469755f9a76b92bb29f2e89e264ceb1e2881a4aeeec2751e];
 [0x1946fe9de0a943d5a716eac08561cd91f9031fec82da9ab72883c7b218b11eb7;
 0xb5cfc2a2895a6f9f5ce97bf05bcd5fac012d6737d93be00df14f91d0e6e8d44;
 0x1176eb406c82709b00e6c8aeb7437aee20d0e14b34c91b6d4759d425cea472f1;
 0x151f15179f562e6fb43c853c9030c7d95da9bbcc9350b40862350b4339f74320;
 0x1d83dbd5511b6cd9e553e82ebce5a91dd9f423bc9e311a211d6509e37e3c8283;
 0x62edb4cec259e007c26a95be576fc925088cd487260bcb67fe88dbba993160a;
 0xa390e27ae606a3530759c877186ef25fda97764052ade30cb5533f0ae878927;
 0x17a961c4c7f021105e4facce2011ba1f6f7e4c18c6522a8879b371bc53eec16f;
 0xfba90a3180e89f49b981d7f2d369f14b354f586ca695d5be51d562bb24f01f;
 0x1b17b06f9727550affa91416dca65e6940ae6266c426f46a5b2a72201c9bf48f;
 0x24aab8dff690a59f7a16863d2987edff9d240c46885a5fe39ce1400c1c6638e5;
 0x48ed2132edee472d9b39de6eddaa2ecd7c1259af7c64ea368e66882d3cecb15;
 0x3ee389275c64f648e0ef79dd7ef8d7c4034d8b0ff91a834705ad383278f1f7d];
 [0x1af3ca6240a55aba55df8e49835b92fa17e39ad5701ef70f8144109f894bf1d0;
 0x2566dbba85110cc708700743aaa5c7061b174365a8efb5938b4bcd82ea79929a;
 0x205197098d6814100ccf6c908eb3792b0294290afe47949c85b0cc054a60bed7;
 0xcced1f9a364f77fe44b306c4539575f8b1ca45758c4fcbfee234e8dcd973ba6;
 0x305e20ea1b93c0fc73307f4825e80471da211c98323f23b727919b63e42501e2;
 0x1e473b357377aeb6c9eeca4adacf0ebbe72df720bb533055f056eb9f2c13d536;
 0x56d703af2f1982a482cc560c2f4f2da32ef0356c73ce35f7b667b8f825b2451;
 0x46beadefd1c7353469794eb81f574d38910f72d81431159d4c532eecc18d67;
 0x2ad6ce3498864f0ae788665262f8b99756997eccbe50d70338ecd68dd1e92522;
 0x8b39764e398e29ffe39a83c045a1218036653fe8071ecd3779cc6e79e643fe7;
 0xffb07a9dd49578818cf9781beaf8940764dcd2f07aab4123f4c9f030513f622;
 0x2e7b46afef5262f60443669d526b99983678236c8f5433cd130defb06a39023a;
 0x13c717906e68279fd9e57e6419986ee2cfdf96b20d200e4adb31353b19a91470];
 [0x81f58a91a4e0d100e0369fdd81a190035342fd0677ee1bf5215e47f8e58c2c3;
 0xd94283e58978ce187d463c50a7277cd3c80e044e15729a6f8ec0422f2ef8b84;
 0x440a6e12fefc1ebdb82b5e69c461e3e332fbd297474c18a65390fc8649a3d55;
 0x12146efb02498c13aceac7fed685b0dd88fbefe8f5993c0cb21b0b4bb85b11b7;
 0x64b0712fa159104820ac07e0d2723a3bbc1d1295ab39a108e2eee8230131f6a;
 0x1e0f62f785734194e76cfced2e91600716eb46fa4d9235f28e47e366110af98d;
 0x8204690216d1d2ef851dee5e4edd9fbfe66f098fb61c231a0e89bbbd9e9475e;
 0x20bac589a995937086cb727fc2561ed052489eefb58cfcc260eefd58502b1ac6;
 0x1f4bd25093fafea78a9db91966e6145c46472a4ed46af710826accac2034fe71;
 0x278c85ceea23e4c040b66e41ad9cd09a7d0ac6d3457a6e596df14505f071de2e;
 0x45ee69f0bcde13dcc97f5910d8228124b16945cbdf38db33cfd3933d2c15c97;
 0x5ef0c0803ce631e81fcf86a7c270ded90e8127485d424abfcfa7c4a9da7d8f2;
 0x12b584469f8cb8b5c200bd721bb2c299c5e63422d730a3baa52274093f9fc085];
 [0x22a852af90680a8ca9688b71ed27c157d02b406bd6c7fd8121d7c7793ad2305d;
 0x239a362ac4f07cd888facdc5e32f0b42e7ce6485e9697d14fb4089bb6074ead1;
 0x101185b0a8c7d142bb221c50fc9840e9c5a0bf1110e9dc717b354f100b514422;
 0x2719aa9c388ab97e084241110f428722c8f72de23a6ee33f7040c781fa5ae476;
 0x18aacbd4af9ddb42418648314a53accac4af473cb54e3dad906a0210b98bcdf7;
 0x28d0ac11170cf9ad662a2f31d00633af17b9f0e345889ce997829747120aef6;
 0x1c76cca8e7372edc737fe1755f75986a465863a66539143a5f21f8ff9b0f8970;
 0xafa7a7f02200447c0e943dd60c468ea6d1cd1e001505ce16ebbcc97297d6cd0;
 0x28efb92a44b7e421bca73b274bc28bcf74f94c7212d72ab6913c1709386c5e3f;
 0x1a03af000cdc46ccc12067c560bbda2a98119041bf9ad3ccd9053222fd2eb4c2;
 0x2409f6c3cc378966ffae28eb4adef67f8c282d8a902db3ba471d9540c0039451;
 0xad59025aa1e7d4a026d1f819695b3f7890b3d9631dd06f7da00abd0ecd94ab6;
 0x7591d69aa28fbfb5b65dbb6f4420106f0b0906151307b976f6baeccffe2c488];
 [0xb27ba82a0ffb98368981736ae927a227828985c00c3e5df8c1276b1001089a1;
 0x2ceb1780957827f9d4fac39214a4e82e89a82a760a9fdd85393b285dedbd8114;
 0x18259272125382f107a04abdc0d968efee527d2242e263015e121fc4b090b582;
 0x10c97f58b9ca58426bd89a59173ce8493d2ea8d3c6cc827ece2453ef193bedae;
 0xfdb0710ff8ec599e7ad5086a29d53a9d1834e1a4c71f0b6846849eb0dfc47bc;
 0x2008c67e2365d2e73a882fe3ffe416e8e0edf4a3c490dbb05d6daf56b4da0546;
 0x874dbfdc6d7035655981f935798b58b755c7a9d82876352cd26244518d67062;
 0x29d294ae7d02f2371a16b483b2102e0055080956b53331aa171f50de5d9799cb;
 0x2aa10edd36798bf46c3cb7bd749017867c029a54e0ead556e2f15cfeffb4d9dd;
 0x2b457a5ddfc105f203eaeaaff9af5149e02c6cf80a9327ed502b29f4c3602704;
 0x29ccc8e6be785237b8d99009dffe037979c7da79ab22fb062d6fc1f59d48a708;
 0xd829ea3c10abe53f0153b4446f6e2a250dbd79f9ef7c45745572826549109e8;
 0xcb3680ad25a34e351089474c8ae39b6091e553be4b67c2bd1fc7a62a04287e5];
 [0x4b46526207edc70a0d23c8438bc49a365635552dee240661a2cdeef966f20f6;
 0x1ce71edf5b935a231b0ea60402ba756a4bb45d65120cc0845f6c2ee2ba32e7ab;
 0xea85373234c815ce2693a734fe28705dc6fd3fb29cacd0b9f4edb694c15672c;
 0x10e60b02e5c0abb8dae47efa17b0582df94a3baebc52bcce8820f858341d7188;
 0x67ac96b7ae162e5d0b43715f4c24b9031c082baa68ac7638a00f8594bc3b127;
 0x293dc450b0e5c560a15853129e238b046a419ac6f0c8ec19a69bf8c409a73cab;
 0x7a2dcd14fb017674965e82174a35decdaad75e42acf3d5ac1a1e235257d1fb9;
 0x5cf8b0f380d29befa5eb75a0c032b7b7eafa895d98e0bc0e86f03ed066c9876;
 0x2d00dde97b4150107fd9bd859c5832844e6be0d5a99cc6752d97585b560c4b2c;
 0x6f2b210733fa0605a0cd753fb6ac80a0d893b2bef2d5453e5f6cfcbc6a14302;
 0x1588e892f9f2d3c6a7dce89f132b3dbec142bf485e2142ae05db7fb5d7ce211d;
 0x14c92dfaa3a1f830b20150093fa670dbef3c0c807f52321e5fcd28807179cca6;
 0x1bb4555d8c5f8bbb268361d5e1c22f9555f7c9f4fabaa24355c963edc263af6a]].
(* poseidon_bn128_constants_opt.rs:15319-16943 *)
Definition bn_S13 : list Z := [0xd064dee824928d39f2a8be7d2fa583223c33995784d228839adde2559592592;
 0x235ce940dbc6ae2af119016151581b3928bbf5dc663dc5f4b6cbf02305a440a5;
 0x1f41f49e23f371de6ee0539e873506283ef7303dcf1d6171a47311e9fabc25fe;
 0x2761de8796f7e0b5915f56fdff180ddd4f22001dfbf15bfc83fb8b76c2ed95a2;
 0x2030fa119e7ea727117fa18d61bebfdc5945b9ccfeb4173b77b373a88362544d;
 0x16fade125075ec0ee8bfb5acc676076d14b76e79b2daa5acd76fe6719476c017;
 0x154054c752e6e827543db8d8d6baafb02726fd7cdcb71489510e89dd2faf5d5d;
 0x1b492c6aa52f42a57aa6d9e9680c14875ca28a129fddb2fedbeebccb5c83cb4a;
 0x23d1d1bcdf6c2c14376e6619ef855a718aebf7d9918f578b59025e9808936311;
 0x1e509e854698b837ae62db6eae7730006480f64ecabc6189a6e923708d4aa5c1;
 0x104a16aecc2dade9539007d7a631cb12e7ea1ab9fa18e4c8d158941e13322bfa;
 0x167e341698c1e47880a08b21374178b7e318714eeb40b54504aea93443249f9d;
 0x16ff745c57280b832126534f65a36e051fcf161483d1a9ac4d2a882d55c4b3d7;
 0x16556da3145b12699852213b53eddd1859bf0c06464a69887a6ef1319cfe3dc;
 0x1f52e72aec02c1085861bec46d3c952a7b17e3b859e1e119e29f9d55b00a9d20;
 0x1439235c136533951e994a422857fcf8fd137963c823113e777cca92d5772330;
 0xa70ec5c87c2873d1927e525972dfef236ff91f79962eac7db98fec13c3ca6b;
 0x85c4d1ec109d4fe0daa8548c7b641d62bdcad7b01f0257ea54f9e6371d00550;
 0x2f4b2580ce56a2b5941abee8b7f98ae4b89e652a005b6d378edca751823992b8;
 0x134520116944cb30a05c694e90ccfe26376a23acdf44719d5e94a40c0cb4eba3;
 0x2c6f46236b3de631bb23dded37fe4349e986b9c26a99382a28125b2123e9612a;
 0xba54fa736725c45c9aa2edb10e2d160ee499707fc5d3fad092c6f6e60830363;
 0x9fec55075da3b0d949af21227dff641435e920034b8f3a054f6ceee03f8bbd6;
 0x2123de2c4d9657466e2c0994fc75161b658fccebcadb25d03e1005480ff65dbf;
 0x15190bff5104801efbac26fe09882fa5d5aa2bfa702efcd1b9e8ae4aca9f2ee1;
 0xd064dee824928d39f2a8be7d2fa583223c33995784d228839adde2559592592;
 0xebeb78e24789d13e315aed03d6f9a7503f8027ac8c07bb31cab7d9f7c867273;
 0x1a7408d356b546b06ff9e11e706fe10311eddeb564d15f77e406c4a17eda0fae;
 0x7b909e9b3d766c0562bf5eae630eb1eaa3f486b67385e9f15840dcc75a4695c;
 0x2fbfae64d96df063622736669771b3763fe4d7e32a253b2e9a432fd404a5a1d7;
 0x2e8bae55338b9e7a202278022d1f4f1641e8dfedcb10173f8ffa47a394a792d3;
 0x95cf55bf75f13b6986a1d8dc6e23ef27c6e20049be69d275cca08a95c4fafd;
 0x590c80761bacb1996152bdc843ee9bc8d9e1106d6b44143cac61a582c93c707;
 0x2e2c9e1b232536be64e82e3fe38c9f83cc1e2ec77eb98d690ed88972c55d4dc1;
 0x2a0bdd075038ef925104da5f80d436819a8896b46194b795f9ede6451882f668;
 0x25e3f54e8788cc765abcbecddd2326c7ae8720dffc3df2e7cefb06bf572b019c;
 0x2c4e38ce29ded57148964df0816fa57324061c515ed02d9f5ca4cb4231e72d9f;
 0x17816a3115471f4af63e353a891e5c63a1de21b079324c7376c7fb778162d597;
 0x16b1e612a7910bdbb55b44174b22b72b63ccf452f485aadb834a8883f7a1129f;
 0x1cdbce6ec5631b7df36d7fbb1734c066329559906cf4c9cc7023b75445f2cdbf;
 0x8527bb0455abf9205319b4178ac91c89d27d73af39ca3eb5e267b407dc122bb;
 0x295a5be07d3fad3d9622f92a52742786741d19fa1f85424e6bb0383b2b3184df;
 0x1d10e15e892ef5c67b06061e9230a13aef08e3a2422e59ce6a7de3bdfced494b;
 0xa1cd7913f731a263b47880b483792d1eafe766bd397d6a37f9b03bff649ad97;
 0xaef18db0541091f4d0a8c6c0e04bb191c3b3eca9abfe91b336f37688f82381;
 0x2c240c1f57384c0eb11da2fefef668be130079616fbe953378ca4cee358ae80b;
 0x1ef04e55dbb7768b7ed264223a560b7462d131ac387b0e06e091075b036c2903;
 0x19df6cfa53448857b40764ac927e45c59a4ae69088b7bfec231217fb49bde976;
 0x1b794d61ed2a335a1b6ca4fb2df93b5de924f51c742c97eb1f45262f4cee3ddf;
 0x62906482824c01daf001d0b01e1558d7a2e921bc124099fa704a167305b0432;
 0xd064dee824928d39f2a8be7d2fa583223c33995784d228839adde2559592592;
 0x1ee5e91ba44d3919a02a4c05a704d15dbd6665d3a0caa7534f062cb702e12ea3;
 0x124e5670301689bd1d21125260ac980aa77f9927abfaf6625cfc4aea0542c38b;
 0x17f39c51b4f9aba0b50cf36cdb63d6485b3f79e0f4c56fcdeb1668eab22d2ee4;
 0x1e47876883221f61f5a85cbcf916e4255c146208100bdd75df2550b7f23d9ab4;
 0xf6cfbc348d0c46f2b4514fa4aec63685b7b4a77cc187f39f90352aeed2d4196;
 0x1ec916f0f8ab3534a45fb8b6fd52a0db612345f94a7d1047b9cb15bc4354d259;
 0x2299e8cfa278c8ff8acb571283f8d58b07285fd3db093f52816286f8059d745e;
 0xe63ae084d4165ef23463637d3c6c962642acba1dad62f5df322c00aaba6788b;
 0x2c652dbc12391bab6e6b1642278935adc57f028d75ae594e23e869dcd807a04b;
 0x23cca3a96c87c09a758f977f1e8e382898bdcc82debfae4df05bc7c16e74aab;
 0x2f5c19ae2b06aa09ff617a2dad69858ae545b8a63f5c730d50312ca740d538f6;
 0x185c013083f0dc7b1eecce3045555f593a1516f7c0486900029a21537acf8e03;
 0x2e4ded90ce2c40cad391f536718a6f107838719e6cf002f2e914ee1db3fda861;
 0xba3626706fae4da22a59bfc7d0b7c3cfff221ed8a6984553a6b605fb7ce4cae;
 0x228687cdc81f4bd727891f41911dfbfe24107d60dda4ea79b5b094886e89c4cf;
 0xc1a4374bc29963f2c4e68c51518e098dbe906d9c3a664e24938a403009ee28e;
 0xb49ed175ec0cb65d9fb76b9dda5859af6f7eb12e0a4895c3de51228e33662a4;
 0x26be812425de5be3e6f4fe6694d8b883ad156e67ebb1aacb6cb64fd41d64b19e;
 0x17cd4b4c75b978ac369c026e0e34885bab4c745ef05c471d7975300eff003dbf;
 0x28ecb3b468e0867e4dbe29f05490b90f6210108a30624715634e3cd6144085f6;
 0x2ad2a688d5e1fc7a853d17ff8e29487e6a9fe8e234b6423425afc192fd6926aa;
 0x177b3225d90e7c43f46ea85579f408bb2394983faa33d3eea7b7847e10b71a09;
 0x18c733d3fc6d5c4ed730650c512b0b2922fa4ede0e4281279df25cb57faf1749;
 0x25c287190fdd3f0fe552c72c747c521b8e47f042dee30f90c88cc49c425e2269;
 0xd064dee824928d39f2a8be7d2fa583223c33995784d228839adde2559592592;
 0x17223e88c5afdce6f98c3d3096fdaeb74fa99a0bf6237bb328466b843b5b481d;
 0x17edf7bb609e24ab634349d03bbac5d92a99f1f54571cdac8e155a3767946556;
 0x16384369e8e866d47b74c849496796fe485290080acb6d05a78b399906654ec8;
 0x38414054cab9daa6484886487f9b1491a0424c75dcfd6e69c00f88391963260;
 0x2add2a9f58afb253d9e9729b8510c6ded8cac2647871b4b2daf92c1ed8026670;
 0x2f59f831ed16663ae1e72b27df74f8878583b088726e2f77e2a9b71bd5eb4e8d;
 0x2c8563397614e4c977762b73467f74812d61eb6c921df0b18bf84dae0a448cda;
 0x10844b6d701b264d333ea6d5496ee62b7f99b0f3e81e4774f271acd4e6dfc452;
 0xd90e1221b226621bab0f84164c6bd657cedf457c1691c6492548cb503962f2c;
 0x675d5268e859d734fadfe6aa6a58f5bd47e9d9bcbf7311d928562f772a44312;
 0x231539abaa71d18f3c100449d2dbb5a78c8c6eca61debcf495670ab6881cdda7;
 0xc5e674c55e57e981b8de7f89d00aa088f47c5b01c39bce85ede170519bceb81;
 0x2e6b1e65cf7069fca7f5ffbf0760e5d2c6acec8da85ff34f2c3cd55f744c8446;
 0x348474ad39c09ecfa686a8710a7737acd19917fb66e90a3df84d110b5b26048;
 0x22380985f6c92bddd7a02d0187c845fb834c9b7e3664e1b064ec580536d1192;
 0x215293044ac2044e97d2d06e714e937bb16844b2c4e834bc3555633a31ce1d33;
 0x1076db0b38f462a6a9829ed423572f05d1658c390fca109dc6a5baeadb39ec85;
 0xe0b3b39e33b5f0f7689976066d5aca89f070fb078152378bbe4cbf608330e0c;
 0x1decd713548d0f04ca0fc3af31ef53eb04fafa773cc696bd5d7959d5b8781f3a;
 0x8eea1ae2e1dbabf4e3969bfba914a7a5be05a672d16aee9029c3477ad75c0b7;
 0xa3c813f669fd0550005be2ed025fd263f496cfc0c88708c5723fb6d4783090d;
 0x1482b39a31e48749f37e6cd63f9fd7498b70623637fae3183f1805deb488df4a;
 0x92c09a074272c56f7611ae231544253242fb998f1faf5a04032c897705cc180;
 0x218cae97227d24e5501a8c68d0f9b298d102b5bb4870acec8ceb068b219c5de7;
 0xd064dee824928d39f2a8be7d2fa583223c33995784d228839adde2559592592;
 0x19fd38d0a9fcfe44eab81a88bf83e966f625dccfb8c8e663c92783d2f36f435a;
 0x105b69e0c16b67fb448ce467efb92c03c0a03d0ee652aa1d3f57276bcda15b48;
 0x25d1fb19588b96b835cf451788b64356dae74ac4b1dd04105f4ff71ee538e69;
 0x1a3d3f0584d9937628708ae5bc1a677ca0d9734ba13f9f9bafd4d40ed09efd2;
 0xda29cb284f0b19e45ddd3688a097cd2fa147726da98e7d7565480753c3d69ff;
 0xbb245a4fe17933f1a323de946e9c79ecaefe27cb72746f02dd7f8a12fb97465;
 0x12968abc1e49e916dbfd8d32c99add0f2522613fdfa603384acad50adb3c93d4;
 0xb72090055db8eaed15c53223be0d59f134b6e2bc190ff8aa145de2bc81fd905;
 0x2ec92e332d64bf0a6d53aab3202f16e8f931b0b3a19d08397981e4d67f7e6149;
 0x10875e45751b9f7e6d229bcb6035a0f64d2fc266087bb15b46ed8dbac225a875;
 0x20a28d7e7bf2393dbf1e8fd1b5957d6696a586df80ea755679bc922b32214f06;
 0x2dbcb5a066131fe70e1035acecb96d60a3c48394ef025f9469318ae141b59474;
 0x5d382b11621ce81dfa3b2a5b9fce537f18f3e1a3c11b744c44b7daee0f539a4;
 0x2aa1cbda3b7224be26b553b60967d1e49a79cc1fcea1e28dcceae95257195fa5;
 0x119d098ff4fcd15606264dca209fa31b8f90d343d73408afd99cbc60bf31b38c;
 0x2d6a5ec1decfd860f606bb717c2d6fe04d5da0a512677bfb3b88c6eb828ccaa4;
 0x1d44cdd7e0f9ff30fa262b991bbd4b25b9798c52b5475288dda93773873b70f1;
 0x1a52bfe42c699db0584e9908947654007f895244c01b0827637fff73ee586351;
 0x26bc0e722f88daf0ae3100dd3603409108756c81c2d2526d432135867248f06c;
 0x2151d6544b541cbe98b57b17bcc32174691b7dede6da01a85964ff4d03c63ed0;
 0x1dc401101c1f1df1931569efaa9db035fb7eb1f94ae9ce86cd6dc0540b1a1fff;
 0x219d8e0b575d09e774acf4018fb6302ac990e13959c8bef55814abe703d0a4fe;
 0x7107aac0c5aff7df10b39501354acdd1ab5dc0091d0166c55cd063c3a3100e7;
 0x1541846836b18159c10af51567f8cbd22556df4f20dd74ed1cee58b3144fb464;
 0xd064dee824928d39f2a8be7d2fa583223c33995784d228839adde2559592592;
 0x1a21b2733e57ce5cc36d9770c7eff1ae09c59af2a97deb649f35e034173963f8;
 0xaa74005a1aba9f35de88f256300d0f55c9a568a0a3f962547fff0a2ffcf3faa;
 0x302cc36dbcf39b2bb8f4ff9da06a95c8a904275eb4ef75a5b82fb7cb80133143;
 0x1ba8fadf54ff193f90ce70d81d068ef1caff816cf4298a9e9c359b78c7b3c77c;
 0x177e25961a6d2d2538623d70bd43b86651ec63b0ab29b1e706308224a0b7f68a;
 0x29ade22a14cb16e95939ac85e6c50f089d187069df8659609634290249efc500;
 0xc3cbc360d3cc87126d6dc733e8c0276e1b576ca318d256669a2777f70d89308;
 0x138a5c75420e198be86010c147c10fb0b6c882ec10683dfab0ef1b8cc023639c;
 0xa350052193a49d3255030214d15b36a10e7b2561890a4c851128603b6a5f092;
 0x1002580094079011e6c17ea867b391cfe05b5e73c6de87869cf2545c10084594;
 0x8c06521680fa7df05e7c8fb8a3a2ffdc0526051a59411a0cdd29e5f993e8f47;
 0x2a3a540122300f3070651e9198f9d5bb0fb52546c35ae90a4deafd9baf4e65a;
 0x1416a8824238910444767922e320d38b543cca200ea6c5591db9092e224be615;
 0x507def96242fbb9a1ab87fef1da1a03f4c3349723ec4ae6de894e171a1b4af5;
 0x2d03148012d730729390a74fec2d3e7ba9fd23f45e801657fc5e2a49b43744d;
 0x19446791471a6f03c3e0e557ea0d4b24bbd2930669ed23dd286e81b7fe17abe5;
 0x23c198ae993dfc34a55d2cb02226db49afdaa1b8cfb934a05ca594e616f43f35;
 0x49ebd2c1b2507a1399a21690d0e6a900184d15280bda27f5b53099933aafe5a;
 0x28eb35a44903f387f0b17a692fc99cc80826f9f36eb1b9576e2c5c4c48ccec56;
 0x2e217b29bc22f5d1772b5bc1fadc11af5afbe87b223fd501b1b63ec28a77435e;
 0x5d617f4148cb5ad818ca83e3e25d1aac33119f4862592430498b6c044ae087d;
 0x196ddf78908da3e629df88726541e8f3dc6bf7b3434a93b25434b2773b546eff;
 0x19f43813c7b1361c536509de373c74ebd978b0f3613d0457e59295ccb3447940;
 0x1dac98a00317e1ad75b44dfd710de43a70e1a99afd151dec478a8d0b4ebd67dd;
 0xd064dee824928d39f2a8be7d2fa583223c33995784d228839adde2559592592;
 0x248389b6c1215ae80412361e031f9d19e83e305fade25b5151787bac24151f30;
 0x1d6245849595c3f2e658dff1f825202f744288c73d5b6fe3e47be01c85231a63;
 0x2828197fc5ec3d0b61e3cd35b39ff7ca0582844ea9893e47575ac698fe0fab44;
 0x5f98baa94403cbee299a7c38bca231773951a9b5ec47809445687c1fbfcae21;
 0x21c21725d982bf880516bdd009e9c82289429fd8470ee4f009281b6d610f86d7;
 0x25161628bb96c434fcdfed33abfb03d4492060f9c12e5d6e11a30da401f65624;
 0x98dfc41ac8db685ac12e9fcb277ab8b38fa0b4b943b5f5863189e57a4ec1726;
 0x20e5160dbc32bb70dd2b667ff122aac9c9a209830d177d065eedaa37c238b6d3;
 0x2282b92a3302808cdc7032e874419ad5b9445a5e6948c67e35af7b59647e6072;
 0x19183560ff143e5d855665e03136bd60d6e627117857e45ce3b170d335d19805;
 0x1cb1080ee04da98e9a546b1eafbfac68d7bbd31acd6602818742e1dbd035345;
 0x2e08e6eb7f7299ddbf4e83adb2f544c8e2bf1733140eae2a24ca09e8e190ba93;
 0x17313eb73d301839abcd85bcb243a96c662a9225d70e923f4966024ff3fea376;
 0x115a8fa0b0211dcf5a0625e77bf00d4eec93b313811c61441d04e2e927f99a1d;
 0x10671e260167bb4a73650275e517b30cb040d62e5d8bc65a23e2bab6fc0927bf;
 0x697b10896487efb0a81d149a959b22c8edd1b130e18ab45dd5e4f287fc567cf;
 0xe23561be0a6b6e5616ff582cba30e707dfb2d85aff42daeeebab0a41fdd2a9c;
 0xe6c17540a1832e4aa8682e0c1ca4471e2ad131c70a6abd6333268f39568dc32;
 0x77e8a2a9d0da541d9357eb1b603ee9410d49eda3140ba9abbe1b6cfbf8d4e36;
 0x1ef5a47f9491310e04e85c853bc42a12227721bc8ef99acf866256c6f0ac2b05;
 0x2d756bd8508664fdb9623bee29f62db368e7e9fb8c2f8cf806a2028a34a54ed8;
 0xb6440027e32df5bd12e4075461952f0c0a169f47e498833a0338776f3cfee4e;
 0x103b3141b18d49495ce38d5e0ab2a691e78193978da5888e36604c51eb757e96;
 0x4502bc324657c18c59a6bcadcc0735e706677a556f0ab33468abf64bd434649;
 0xd064dee824928d39f2a8be7d2fa583223c33995784d228839adde2559592592;
 0x226880584a57a7c552da325ea532bf382c67482108870675bac5d3d9b6a71abc;
 0x178d0b7b044c806c180b95dfbe188f99e7dad714554fae1365264f33b5204d38;
 0x110cbd05beed208043ab1cba8a604abe596258c516ea0c68b804d2e262989e28;
 0x2b4f9ba6e2d2e31078ed70f6a147e329d1c4b83c76119951dc7bcc6d2a944cd0;
 0x1712edcd1662f4dab78bdb08c5d2208e096d26aea6d8b5a2f1ea1a575dc29dbb;
 0x20e7ac1985805214842f811423601b3f18c8634e87b1433382bdf397b28b7e21;
 0x5e6b0e267ea884c7a767266b614d9f23883f297a9c40b2be9daf6af85f31fd6;
 0x15adb275543fbb0e083a10e1ec448b8eebf82185f0a99a06bca805737f0d7db1;
 0x23f2e8816906f5fc349e99c8241230167b50d8db22c5e752d640fc319c7354e1;
 0x8a8a0eb412422e0ff3bef4e8f9e98d0937293d8bd96c9ed823de14c7a60fe44;
 0x147392d188c52fe487d5e14652ff175b37253bd5fb04ec9e316de4cf5100500b;
 0x1a1a69d5bda4c559702d87b8ffbab347d61d5d5ffba016055b540409e90d050c;
 0x26265b87f8fac4c16383d9763460242746a0fbfc7fc375a251a39e5cb12c8ae;
 0x562af273c7d6798ad1772d383417f8baab7feffa3f8fe1b5061e695a63ea362;
 0x2277d743f99daccb8223eee9ed2647e6bc22c5f00a0dc9b45c26898227530c02;
 0x2ab7551e6b4731a0b2c00c1a1c57ad9dd66b2239a2754f64328d4023249f331c;
 0x67e6bb5600490688a67ca30a941a68f15dc97eb418f8cecceeb1d1f49af1cd9;
 0x299b048827a0cc67b44e53fb5897f27c57c448ed25d4be88b1b81b22186c0017;
 0x4ce6cdf689338f7df3c3ba84e7ef35ef59adce460340ea0d161a45123c4051f;
 0x17631e8c563356367e1607096074fcd220d0256a60e1e6d145bd243c5475cf9a;
 0x25be84baaea86bb16bc3de4e5578c796e1888ac898d37f1f835ea87f1aabcc04;
 0x7fd81c59493a306dec9f05c012a96c113a950a44cea7de572af401db8804f2d;
 0x2d71abfab45aa0b3d4689b2518ae16f87cb60b0fd9d40c3567e5dea122815ae4;
 0xbf1dacc9ee49263420b6b40b061e1de77884556be4629a011bb73c3cf8fd282;
 0xd064dee824928d39f2a8be7d2fa583223c33995784d228839adde2559592592;
 0x207e38309d97a6bf02d2c9071fb8c0243a8f6570c15c1dea211dcc2cbf45ea49;
 0x96401efc3b429395ea5c187ccef5c551ed99043ce3abe10e0b2f6c0fa0d29f1;
 0x25e2fb13f405f8cdc60da80af2df8f7aaea21aa8c5ea1b80edc22261c424810f;
 0x14f942438d0b6308e88366af640e59b35e7b90dafb9949cd395fb9edb36e57a;
 0x1a732391895868212d93a33c0c4de589333631c8260c991f7885b916d0037272;
 0x1e29088ed2ebabe07ada9617c87d6ae3eea384cca222ea5983550c9d25bb0648;
 0x5ee285acce6181041543d01d650e8314690f337372341336b4fb1b27dc1bdb2;
 0x252b8b5dff5e6788b2389b2e55c939e69871912bbcde09be55a0baf9f8c7a67f;
 0x5198e4ac3158c2f1f30e9c7333b8f185372db43467e884f9961396b75f7d60a;
 0x245a5fd31eed8204f89bceedefb467b89e3cf7fe91d24a33a3207bb6f083e19a;
 0x57bc812c85f04480fe94410a106b281d8f3e2d54b39e4fb45e0a5ead0910dfc;
 0x1afeecd7c598ce3f7281378c2e514c5be72109df6efe311497dbe12a819e406a;
 0x2fb8c6d1000b2bf11eac94956464fcdfb9633a271fa8b070f4b63efd7b5007b8;
 0x32899458487c72b4c48dc1f717a0b2aa3ce53b6a4b38558b7737ed21cafe78e;
 0x662f06913258bafb5bdf1aa929332c7c97d4c4490c6fbc8e798335ff76e126b;
 0x1584478d313986eb0ae24f5d342d3ec738138d749b5071e839c1693af46f3a3;
 0x2dba025efcaba3d1c4cf07885e8fbc1f11c012bcdc009087f306a399a7645111;
 0x9883180be89d40f292405a2d44f5b9bba1c37613ddf84bf28c4fe593fcf06ee;
 0x1ba2bca86f0f3a73f392649f65c1eeabb57e3527588289b4820a391a46475dcd;
 0x148b95dab3a784e6f57042365a46a01e5880f17e09f3141bf99c53ee8a1ff06;
 0x209b90e92015a18f13bd1343a34d905fca3ed55b88bf1eeabd3e542987a08628;
 0xb50cbb98c4c16293795735e6cad9a458e2d37f1c02af95b15272aeadee5307b;
 0x28f083282c1dc347bb8049f59580fc82bebfaae2fd4d5c3198eab42357656c01;
 0x1e3cfa063b3cd467a69c8a628a627faf26187744a879ed796956bc1e3b1ba00c;
 0xd064dee824928d39f2a8be7d2fa583223c33995784d228839adde2559592592;
 0x22063e51a25b5a045914651b3b3fbb41a432a2cd49fafa1a6da1f1b3abac6b39;
 0xed1ee65d2b2cb52e5c72dc18084cdaffdc8eed2dbf45309a9b31afa3239e0c5;
 0x9f1f1407a395396be8efd490907e71b2a1e1a761f5599060b1ddf9babe3ec3;
 0x24e22c3cd40dd01dea8ca00b4ac1dc8cf2fe8ec7404f09decdb5f2e27e4f6a51;
 0x297d190c65439de912d9b19a51a34f3af3062388bc90dcf02c95ac55f827f393;
 0xcbc6af2a7286736fff8c442d20accea23f927c42de68c5965be6b73f787871;
 0xbf4731c628503367f3a0979d34ebfc4e1b3a6ee8cb90f8e145ea71108f77b19;
 0x74ef632df5709022478511a69f0c35f167718dd3943a871dbabcfcfafccb99b;
 0xbf311d6ae97647aea1524d5c401392a2a6242420918607c8595073f00163f2b;
 0x2fb17a27e5d93c8fa198091d288eb25cc9a75a3cc2bb29c73b7c4962ba6b02b6;
 0x17eeb974a4bb33ec349adc4e3c5e9141c3fe5b52b8a9eb5f55897fcd3f13dff5;
 0x16c75dafa94b13f4baf5a849aa93deda4486711f92188ee41083f8ef0e2a19ac;
 0x122da8189ad70e3c28109ade01566f47039ce2a35d85eee2f2212139d7e6a83b;
 0x260972f4d1166f0a53272aaf203d54909f372f9ef5175fa8d15f863299bbac2e;
 0xaddc83c8f239eb4617cb1a6a99b9ea314b775252379d4a28092946834ec18d;
 0xcdfe4ff760184a4b1e1c7df835824830c35d9ae719993e1c8b61968341c74ff;
 0x6cb7b1d7ee8b715c2b325853d8374f2f1edd1c47defc42d560fb1ec2ec4093b;
 0x8d48ac917970f6318a8b999fcfa64bd0026915cfbbaf2356c0e68415b42cf64;
 0x20f5eca934a922f2324ec4f5cd1423fb342004e24db642dde32d4f49b020f19d;
 0x2926c1107b74752a5b0b0326f9775d3c0290079b81f1ee7b3540c857a2e6e7f3;
 0x2ad7b40da5583cbffe41e7ba8a9dcfa0aa04526e17a359e380152ab05659aa3e;
 0x157176042c8c3678e6a57db77c420cd2aac6658f392eefec6bd96ec3d75d16e1;
 0xd6e65707b940bb40ce868be699f58d8f328c635900db4f738d9ae05b337e4e3;
 0xd794b0f796362925d3c3f8f7a5fc0fa8995ff16b7cd198a7a4f2978033d3e61;
 0xd064dee824928d39f2a8be7d2fa583223c33995784d228839adde2559592592;
 0x20a525ca48bf502bca0dc9aab020e141e26b38ec47a44e1580c0d1b616351398;
 0x1ee320963332762900b4744bd20f6f06d90663c9a45ccf876dfa46ff7b6a648b;
 0x22635f8210cb3cd5a5f3d6f3c05db35f48f4dd99ce9689a4a49c1396fd0254b4;
 0x236867069537dc76045fbcc34387c0d659f274038f60bd46092c7c5c6d2a93ac;
 0x2949bfabb09d51a438ba0c845a569c3cfd415a4767babba43d49b4a7d23efe57;
 0x1834d2d0982cc3e0a6783a1817d0a70935296a1e1cf6ced2fb36e49399ff129f;
 0x42688f81e90f021c645ab69ead85df5637e8c35e5f747da2b9353fba3614759;
 0x2cbf3eaf39ad0427ce377701b0aed081ab11a4d8425a5d85eb6ed545e02a3e67;
 0x28ee79339c57962491524337981f039783042a61ba46bc4b6d27842ce253e295;
 0x2dc6b0d76d332c582bc225e0e3852a84e670441a34a35271183dd071b3a8b9f1;
 0x7cf8620fb65b2763c494dda02d454c32d86918bcd972c81af8896daa2e25220;
 0x19d3305037fe6d5dbdb1c2cf07dbccfbb3771dd745a1a776027e76b829c38e15;
 0x2e6f19575b0e917c325b5455bfc97e65b080d5ca3b0d866a13315efc1f5afb43;
 0x1e726c0acd6e169de2eeeaceff128e7691b7d4fa8a046ed41a828563547a3270;
 0x2527a428504d8fbad1a95451f6968dd7750e9b88eb737094d0d22806ea461bfa;
 0x1ee0e151bffcaf72aa962734818b53086af9a5eeeaf821fa85a16ceedf5006de;
 0x1332d8ea514225643ee26cf14ed13c2936780d3b0df8d13a0d80c7593339dc1a;
 0x67440d1b5c5c1e37921583ac6081d7c0b614430461abbce3445fdca1c25e52b;
 0x217e15b68bbd0d70328ba92eb9848533a76fa177015bbe167d9648e216d72fb;
 0x1d5f55517167e8f4e07ae1d8fb025baafb68072f0ecfc39c2ab6917e2883f001;
 0x1ce431894721293173604b5423cf3be2aa2a4c602244ca33cfc474364261e219;
 0x1870cdd25b0026ceb6ca8bb7a4abe4c835cc54fb5d4a2bdcab837776e4a41f36;
 0x13b6c4c8a9796559718d72ff32d05acd285d4e36b24a0dda09181dcc0b821225;
 0xe59398cb50c995ddf9469890c14f7eb35b6d1ff21b54fa88d75105180cc9c84;
 0xd064dee824928d39f2a8be7d2fa583223c33995784d228839adde2559592592;
 0x2471cdf128c6570022fa1786a35b379627cdf4a1cf0c888cddf80196fad77864;
 0x1eddc8c186b5952235d179801e4d1f5526b26e72d637d482d34aaf8acdfbc678;
 0x41287596ebb654ec2703cb288320c78b03e252a98d304b5c670d6a9f3b75f11;
 0x2d27cddd60f27e931720ad20633a2e0aa9e9fb34e53a1c92449c42539836cc84;
 0x386464e269edd20cd4abedb92ea083d5251633ec2ed40b9c9298a6b03d0c47f;
 0x7b28d6f381e7fb054165533e6c22be7235e01dc2111c2586c88cb6b13915daa;
 0x25a51836e32d3111c1ef3a5b222a45a8647f491b251a0e7d548aa579f04dd532;
 0x4133c14bb36f4f02735144703cf36b0e6eaec35a23b23a5b3d7bbccce729e3b;
 0x1a107c44417a85fe63fa5f32beae1188f7ef9c7e9887840e06c41442065fb590;
 0x11963a7f8f62abe87fd0e9f059bda23e56ea044fff31672c16653096035d6e60;
 0x63942281da7187cf115521332a5480ea6297764540daf35e844f9a9db14df1d;
 0x28323184f7d03f5fdb8c55416291a0f2893f3f8f704345fd197335bab60e6313;
 0x1d5ee3c314bccd0507e0e1f3d22cde05f8beef4006bdd196d1cd972a00f328b5;
 0xe3e7e1bf77551287cb3436a06bcba1356aee949507c50da7075fba70259055f;
 0xbdb1ba75288ad45c653e6731b73fcf8c2e5a06452a7e9b1055349ca1b954a8d;
 0x163efbc5313a19dfd299b4f7d24ac36fc09dae316bdaad22f2e7354890487b3c;
 0x655a2ee9811be4138b87caeac43693187ba723a4a252e1fe5aa481cdf35dcf0;
 0x221ab7029ca41cb3703fd26fdbfd99f83da62e3d6aed9c715fda493e703ded14;
 0x17e06a11e4766ab95ae693ef77be2fd5a816abeb8af48e77812af31a9bc97556;
 0x24fd79ff869a80007553fe52dae87841d271b05d3465e21632e97808db658a79;
 0x2937964cb5feff56156c0a2d36e7d717f5133c52311e8a9250e3e538c6d6a2e4;
 0x115b54ca59723ddcf0b8b72e014a3532bfb9461db00c87b805e6eb6f950eb2fb;
 0xb83ba59544995c109fe67c59e1c6682df4f0a94420449255f2e42125d1522e4;
 0x856ce0b9c472642563a58f67fbe8490d213f1e60c841539d6593ce72c8caa75;
 0xd064dee824928d39f2a8be7d2fa583223c33995784d228839adde2559592592;
 0x1234cde55f1ce07e8add8919dc2786c2a2e8baa0699f9309a24a6977cf4de312;
 0x2728518406453c21f80cdfbc5ae5a7e5bc660853c39c07f08f4ca48b866fe708;
 0x263c6e870681a568879af7059e9eee6c2107545775a707e5d397e090bb406681;
 0x264b910c5d9c7677ca26b01c95b2eabda02155d239a7525aacc9e7c3a1b31108;
 0x3626d5425f196e0ecc625c95caf99c1788ab08826db99cfc994dfc07cf7cde2;
 0x285b7fc8640c5644ef5acd76eba635788490408488d4c1c7fe5e154882885b20;
 0x806dfed34a9e837d6269442a1ac7f06b9329bc91b841651f866d001457a7e47;
 0x17d501d18a443c458bc2987ac700a167935fc95c0b43b2bc31d3d1e66f4f4185;
 0x1c265144d850ae945f896d29b8d25558fe572437cfbb23c0d2974ed75a8446c1;
 0x2d349fcab317e2f10486728b85b73fd55ef9e72913db57a96de3799d79331a5b;
 0xe3b16089c86c7518eccbf3e7b5d6c93a7f57dd663e313bd9278599baedbe8d6;
 0x16842185b0a19379239ac6fc9576f9662323e9ccb19c73ca551dae5a204363ba;
 0xafddf6a0ff562cf8cf83b9b4aa7f77ca5944dc203e6716ee136947b7774d185;
 0x1a7b9bf02113552d2267b66a6a183c58bd9b0a71b607424034ca249f48056aee;
 0x1b292db8eb2df955d186044eb865b53c345855fb04e0e7aa34728f3a33dc8f61;
 0x1166bc2548e4dd1a597827e1ff6b873b8c029056733c2b15524595f6646fb9ac;
 0x27ef791b1fb45f73950ca3297ad2eff668164240ca0fcec4d505379347a4b32f;
 0x94e36712d3e0387be23f4e8d2e8932333c2b5b329ff01b0bded642875aa8d8c;
 0xc3cb8c9451dc65e2baca4021012b4107b1277ec1e8cf85684523a86f4452caa;
 0xc16066d636413dba5340f2dc58657da3d04fd4f649280bed2ad6c43dba22557;
 0x26f53db3a19fbbae833e6dc50733326512531bacac05e1142b5169e0a6f37b16;
 0x17bfb665418fec0ddd649243c3b77515e92eba58355437ecce39a21b3da565de;
 0x21ed66971a5e0e1451a9657918e2bacc2cb244d2f101e4a870b7c40400d8e004;
 0x2fc72d372345e9a20344054b130f91cc301d409bd2ede08380b1d2cc9296a0a0;
 0xd064dee824928d39f2a8be7d2fa583223c33995784d228839adde2559592592;
 0x242b4eadff11c6d3d54f5372755d36c9829ab3f1ad36cde7fad1b4927bcfdf7f;
 0x85e6d5205bc517634147ec300edcf4d8e40d319b2774da859a677ee823b3474;
 0xd7857f8c2ef1d3f6cc0b9d269080a8352f716ced9a8541b58047570931c9a8;
 0xb8a79f4d635ec38c11720fdb6bca9a37e4ef8bbfd3c3a753815ecc975c6b1da;
 0x2d581f4dd4f7a4870f6924d8ccc3aead2778ef1e6dd93b766faa89733c57534d;
 0x26a82a89ac34602384406faabac1204664088042b012c62c312d10597d4473e;
 0x119c9ce0168defeea8eae1085b57836db28898019661e84f988bb0c5dd3cbb1a;
 0x1fdc49eac128a24057128d92ee2b8ae3a28d2ae331e53e898a9cc4baaa67e144;
 0xe63791edc085e7e68fe844a1e288175214f53697c447a06af668ebaf9624d7c;
 0x8e8a95d72c8b0f5572e434cd1e8f29a22c7a051beefe38bcc1c8c67021b6cd0;
 0x150bfbe651cb129452581c0ac0582068914d6b6225eee54f3d041e8a04ee959e;
 0x1f67b188cbddc9dfe73228557f41e28d562eb71233399c51a1120b6f6aa84fe4;
 0x3a94eec3b3b00da129a13059883d56b89d02876861ccafd677f1b692e74dedb;
 0x8a03a992c391bed4739308e90e2039caf26422b0fc314841229d9e65e29305a;
 0xf5db68b751ab629eab8876005534376e79c4cf2a3c0ce2c7681a9a67787afd5;
 0x14c1cf9ee31fc11c4611f6def094e6928ff1469cfad92b71c27eb02938999dc7;
 0x1c8430170e0d27fc8523ca6c5878db717b75136669b58b0582278e4b6a43207e;
 0x2eaabbe95b7e6d41e239af122c392f2c8a422309ca8fdf3f73fd18c4e266b50;
 0x28b85f746bc03b1a6497f9a85fa07e337b664a8e01bf96a096195cdd8dcfd78d;
 0x2eea090dddfab6d9d45f8fdc01e0697db257d6481ecee44eeb736310a57194a4;
 0x29461ccf449b9fe3a48b3527a1b792f31761ce88a12a1bd185d02989048c6723;
 0x2d1eba58a7196aeec7ff60c922a6a37d238bda29e3578e754940fe55f6b44f6a;
 0x1d8488523480035454dd45ab1136e55b48ce729fc37fb3bdf07cd401e3df9864;
 0x169904bf4f7348ccd343513cf038cc546cd137c740b77d3df58ada6cdd49b292;
 0xd064dee824928d39f2a8be7d2fa583223c33995784d228839adde2559592592;
 0xfaa555c1adf771edfa1b4f67a73108c7325be034cbc2c2e6d24554e62efd737;
 0x1a4ceaae57de9dbb19bb3701ae021b7b246fb7550aa505df8f95be742293b7e2;
 0x22d8eb68a906dcad75da8ce62f6763cbeda8004739851057965302696e185ae8;
 0xcfc82aa08b2bf7faf7de17be9adb759389c398441bdd294ed0dc25d3f7c4f8c;
 0x216a462577d231190606ef2920c63455045b8d51fbc6981a103a5135335f83dc;
 0xe63715ac0c89614281493e16b0bfe6d11194b36c1247e22838771eb1ec766ed;
 0xd024106eade54b9f8b5874bc7c3499487354afa2db7df3be1a971c8d2405265;
 0x11daebdd919b5622e294312a5e34121ae33104fb3e1f9e89dad0668f0517158;
 0x274a0198961e0c98ea0f75fe1e38ee5e5962225738d6c8edcdd5623e7b24eb6f;
 0x136d49834864e42917bce7dbb0e439d28c2007fbf09beadc78497d1da2593b58;
 0x18daff02be933186319ae1bab91e42256c5b56ea3d2d0698189294828e2a9076;
 0x13fbadf8255db09ad6b28d0a13874e8586fa565155da2145f80fce40f0c175f8;
 0x75a76152cb77f3a74ebb64a8b949d032a2e1ef7ef0f35fddcfd89473b5c1e71;
 0x1d1a9d3eff8079f2fd739a8c1ec1a1d2c391befa15c4497ee78e2cca6a327495;
 0x29132a7d6dc081cc6d7a5c3524f2805c9ae3c66a7de1714c4e75a9ed06206bb3;
 0xc1457b4dc6efd6f506f14d2cb839adb6995e2565223add3079801818a2b3b9a;
 0x66406956a8af95c2f8e84f977161005287832eb4860d0e333bc2a6738be404e;
 0x2be8ce6965272c3ea5fef305d80056972b0cc10cc89ba56df234736a8168895;
 0xc624c5b84f86974e5992e2bf99aa7406db0bfc77db799e680ceed051578bb65;
 0x1c9fc7b076255b1dd44a3f77be12b8c0c7136880ef39f02aa002253ff808aab5;
 0x1ed5752920052d66ec89e671965ba4ef5beac9b982b7405174c8c2cf62ba9c2c;
 0x11a79d9e71816d2f90a16813583dbcb286ac19f81016b01ffa4318be074997d1;
 0x2332f2f0231e1a5f4adae2661a4988c773f58f806ad73cec7fa8410327c29ef9;
 0x92041cd3c1f24dc8700053b6d0b4d130f9709bae71ec397d1ebbcd08281e1e0;
 0xd064dee824928d39f2a8be7d2fa583223c33995784d228839adde2559592592;
 0x23402a04a12ab3776b14119bbf85cda4e8866dd1c8c2ed209c5cf5a94832d9af;
 0x21f6d7c6cc0750868e0310bb8a7fe02b70afad0229fdad5c5cf38f7231d80528;
 0xaa11c91a5f547de0061ad5ac646b4f17580e985d926dc48303da965dd994672;
 0x2542d51f269de541f7040d7d707fd4d8a045f02c7f0a662e0458abd1c787cfa;
 0xe9367b46e6b89363dc9cfd523f4abb4d123a0af9eddd5e356e63e3d49092542;
 0x13d2aae41f6b1c1b5bdd9c576c7458709c75eeb7af22fe0b7f5d98ea20609007;
 0x19a2b2dc5988a9ffdd458384dd5e0cee7970afb38c1823fe897e485fcda9dad2;
 0x8dddcf32490be94e7be38105e717382f7966deefcdbc67432c312b8aab15a1b;
 0x1a30ac3889e0467ad2178fbd85b93ccc493565c376202982dd16ec9bcced261d;
 0x2dd2470d7ca5e69e5728e76adba044e821425b245bb5cdfd48132b4df5f362e1;
 0x104563d762464be13f51050d3d210162ee31e4b14f0e37202aad99f8723f0ac0;
 0x121b7e910a0ccb4e4d5f220628cd64c2846fc5f470a7c2b6ea38170b9d058b38;
 0x2fd423fe5d1899fe054ff1b9684ff93540bc396589289388681b90fcb8e76c11;
 0x298f732a1a912702fa4c4090d00861d99bbd4eb800b20acdf1c9d4a6c8226a62;
 0x26f56ce61eaed10294727014eb88ada99fe5015c911705cf7ed7bd8f04269daa;
 0xc316eb74780def4c7c08420d1a887d3f3b8028f2d65ef3e18822ba972a50c96;
 0x1db5c65a2d669c928e82c2ba7a85213d03976e7355bd3aba90444c8d8ecbb108;
 0x29fbe3f0b5d6936f4e42cf5ed294e1a18f7c597faefd0087653f06f1cd7ce55e;
 0x133f5377394de76650324177d895cff11b4edb902724138669df63d064254274;
 0x1762e6a990654a18eb15171a84030e43a93481ec520b86ff65263055551d19cb;
 0x2bac62e64e374a494b9ba34ac9cb872ccef42966e1c98c9d12696e1b7b9caf0e;
 0x1dc2f5d192b065461e410a353b6e9ed48f8dd9a5b59e0d4567add1ca1edbbf74;
 0x1e78930fbea45070dc63eb82fa3b44feb8811842c8040f584482e5529b9c08fc;
 0x1161dd83445bc4ac05e88f82b6d4b395dcb7bc08bef6bc0394e2860e1b91a45d;
 0xd064dee824928d39f2a8be7d2fa583223c33995784d228839adde2559592592;
 0x2d84302b2f1ce369033aa5de5bb8498f718102642636ea98a13d9f2f9e03d70;
 0x3aa0b6d1722c2e927078f0d0d2a9e1651a387b0a50aabe4c3e9f9e29ce5808;
 0x1851a25520c47c40439abf21fa5b9007ae1557a0d7a737ebd36922e1ec2fe713;
 0xc88238b7bc582be65a3d9780b1c502a8b2a6bbfcf63863ea988e4caf6e75767;
 0x1231dfe4ea1c60c263b7a7f849c8d8cb42c5506161b7fa87e527e917c942c5e3;
 0x2ea0849f20d6ff258c0f184ca8057bfe236245dd4b8642c64e42ef4a1a9d8ffd;
 0x1ba62148f57f420101c599eeca0abf930464f2c0444acb90d2fb96d3db62f7b6;
 0x21f4a3066fad0b05bc69b92e00cea13278d1a5a67436c1f3f2139a6ee79bcbda;
 0x1be4c6e03d2807854d234372f267581058b173ac8b3c7483c6e8dc3352798b79;
 0x369cf9d45a15633cf75d2234f1014f60d1ab30cca21b0fc60af3c0fba6cc06;
 0x251ba00e6136bd990f4db7457a27df54e6e6a986726cb005ee21e173dc9c982a;
 0x290465aa219c5f39fc7dc5b210ce805d70d3137c43ab354abadac718f5357e1;
 0x72153d3d9304bcb121e16ac43ba352e3492aa9264e39abd0ad500003b2c1a0e;
 0x9ef6ef37f5f703229c7c5171a54a9e7d70151ab47b6312a3b592208c192cc2d;
 0x1041b9436273bece36bfd9801372251c2e753b50485953908c35b63979d9fd82;
 0x26afe74d2bbaa76d568a55b8fe35f02e5e913285cb5678ad631654ca03e11f22;
 0xab136a0298a4bbe0d53250d7be1179123aa3f7390c39c08d76facbcf387efb2;
 0x2154df61438fa728853b1e34064bf3bb988f36af48ac6097d2845a4ed924a360;
 0x59b12d8356358cdf3690ca2259447a7147e0e6d33dd5e0c62293c1fae3c7057;
 0x1a01646ed40505df3ebd020f7aefb2dfcd2b194d697f78eb2c6706193e25c783;
 0x27080e00f575ea9dfced456747507b55a0612618d5377ba4745b1a2c007fc4a1;
 0x3b12781eea743ad978032243b55ffa3c23ba980f8f1fe48f72ece1ffe09b1f7;
 0x10ac2c9f77fcd414c3bea9acf7308733892b1802d061fbe3e5ac7d93a437c85b;
 0xea74b2639185bdaa176c285f7e674e4ade050bb08aa1eaafe0a0516d5814623;
 0xd064dee824928d39f2a8be7d2fa583223c33995784d228839adde2559592592;
 0x42b91f98007bfadfc37f8c7be01e1e6d1a5a001f4163dec7e6fa8ecf7e5e9c1;
 0x4f0196b4cc4a2fd24b603ca65fa4eb23ce4523b695c34e9323a1f55693f09d5;
 0x20687749f9cbe6aef88c27b6bccc40204246a670ede772decba2f34a61bb824f;
 0x2f9039a4b8b4ab2278d0fdc4b35679678b1d8243ad4bb814b8b7bc3e1b8a4b43;
 0x6012407ccdb4f5accc26888a094e35750aa5d88775cdca0a9881e816fe240f5;
 0xe35046c49cc56a7ec8463053e159925bf55109e8fcff58caff08765476d823d;
 0xad83c2a587b98cb240f3feec78c6578473f99bf7224acc545793094333b700f;
 0xbda24254733d7bcd642ef47c6731761aa67e1ba0ec64e03609d3652e495fcaf;
 0x1eb04acee8c325faf51f6ac53200bd56b052e48806bc12513c165e90c0ea75cf;
 0x25f00927a77b2fc8aea3e3df5a038ef8249bd29e7f6422529dcce7692efd6376;
 0x86ff48a930b5807dacfe436fcc67766ad4253e352907c1957127d6a41b6387a;
 0x22d31103b21aa0b791235ce90ef06cf972c8165bce3c68b3714f89446a42f265;
 0x21f10bef68e2b8437330ebda744e2c3e1f26a92c3336c7de3b645a8f4369dc8f;
 0x2e3ed873b0f6ff7facbee3a110baba8af030fbccaeea386ce3a960bb31a71951;
 0x16d86751cd45d37bedabaca6ad75277e9864d3f6d30e4c0cc2dd25a9ae58dae;
 0x3d059764e5aac685b59387aa484960ed4ef9639843fe308f8cc3dee87e3314f;
 0x63f962a68390a818e545995d2b3d53f8a0a5f0aa23451e6d14b0851ab8bb573;
 0x2d7df484595413f83861ed05f30146f9a4efd46b0b90f7ca9440e30c27c9b931;
 0x5d966e25cf9cee974e405c86aa2a1b7ae63f5a8928e136e12249dae3cb12132;
 0x16bda6eb44145f870e0818bf6f60a068288a5ef23da1bc264e01a11fc1e013c1;
 0x287f1bc804ef51375cf720b680501f7ff1c97cbe98074ccc226d18bd5e18b381;
 0x27b1edf001e3a0a8562b991a2790a5b48e3bf45f2d637ae7b5f1ba7a6ad5822d;
 0x74ee1772d860b6ad09b16d82e458eb305228b24a28c70c5f690abbedf70d506;
 0x218ef3d8be2c4cebf3b2c6a75ddf98e77d79729a0f9d6b111ac0895ebdaba6b5;
 0xd064dee824928d39f2a8be7d2fa583223c33995784d228839adde2559592592;
 0x2e130f21aa3bc952d00ba26b10b65c1f55c92f34a51e0d6d6224d2daba241788;
 0x1e6f16db6a97a384c7164733400ef142c41deb040573adb8b0fc71efc2f76468;
 0xda66242a6a2e27b519dd2335e559ebf8334bcb00614dfce963dc07fdd7612f2;
 0x201d2a470fdb240a6d4008cfdebd4b579df34c273ffb66a52ec89962e1a59b5e;
 0x4d1c70932221e3983756ed5d5ca38ef603caff2d2168f5f937c1510775b0e9e;
 0x2a43db76fb42a082375f5e21c4daf3853e9c57d8627c2caee2d837ee857fc6e;
 0x188d71e846b0e63c5d65535a6d121a9648d99af72f72c3f38bc33751e999918a;
 0x1cb4d77c20517ccf346b92567ca15a4b7f7079a150a3b7fbc95b474d2c07d241;
 0x2de6abda392578254c6c2949559b851ca312e5c098ea17bdbff8815ac4216810;
 0x97bac96307e8ecd42940e30d9bde2904025715f5ddc8d6237691c3689635adb;
 0x11ef6e021d4e1b51f156a1c1863d497c95fc1df010d906859d510a2c2d01e537;
 0x54ed7f2b2e4cfea2ea62cb01379d94041481dc85e94cdc4bde08da9b1ba57fa;
 0x16d8390b0ba3174141236bf21283588887ce3eb966b7d45cde064d5cb2a35738;
 0x2db8640099fae4b29bc2ff73424df4851e33eb823b577e4354ccbcb1392ee0ae;
 0x1de2025f4beb8b5b58acbe6126a092ec0a6f3a664325a88e9a28bce898edf98a;
 0x21a514a8d477d92a308095092224f5562af41cf964d34be181e95370590b5788;
 0x140ce2c9605e31576e464e6cbfc8c9712ec8fa2e46f97422d52b0b6401aa5b55;
 0x20313b2273dbcf225f74da13f3e0d0909f47e77e53e833e4a12e439e185dceae;
 0xb8251930e6623b8c062163d973ecdb0f171608c126c7db4791116621f2869aa;
 0xd0b3893c4f70d16172884b37d6242f07ba39e4c7180462dbed175bb0db0714c;
 0x26917b241a12390182932069a99420c31580ecf06449a9fe7871e3193cda0bbd;
 0x179bba9ed0bc1ad6942990e43de2abcd2e7094d7d9fbc02dc2d82b50d9970e4a;
 0x2184a1b9adea49757d59d0c17c369efdc044f11ffa1598f2f3bf4bf1dc7fae58;
 0x65a085cec70ed53a9d53827c7766989219c6474bc5d415be1706e953de20273;
 0xd064dee824928d39f2a8be7d2fa583223c33995784d228839adde2559592592;
 0x13ec63dd902be70179d9a190f2e5f1dded28d2feda5d6ac4c9914c3bedcae90a;
 0x272d4b6c21e2f7d2c83b28588f5b0f462919554cf4faab4bcc668ab86c877eea;
 0x12e29b20a5157f1152c41c4e832287b963b6c774de743e4d3d7a5554cc39aac7;
 0x2c73520466905c9230aa6968c6ff3d7bed3130cdceb68bc5a24e51da861c1153;
 0xb370f950332b70ca2c247e2349d2e2e22e2d4a4f519efed6039504fa2b2b280;
 0x1c58bd926fa20dfa0ed3b7e53fde4e4d7bc4df78d13969fac999dd858f0df678;
 0x9d50596628e021f264983ab61a7bad3bcdecc9d6cd3ec46ecbd83bab569b66a;
 0xad3dd8c790db77df35aa78dc84ad3571f0a70fd70b5ec02fb62f4a459bb7d74;
 0x154ec11de0ba022622b33a918364a375f4632bbbd3a6c0c7b8fd77c3831584db;
 0x2bedf29086a4a80d125df6fca693c198a424226bf0eeacbf4c3990b7ac08c7cf;
 0x204ba94b0e1a592391c9fb397701c62d724b55d28665ff3908d277f2728c37e6;
 0x1191741fc0fcbdf5976b32953adea3cf062a2da42a317f0a9907426567d759ce;
 0x8453abba1a812cd70189049a362f26960ab98640e98233a9799ff9aebc15bce;
 0x2faa16a34bc765b803fc320e5c9c3d60cc7a62bc4317fe5996cb5352ef391f08;
 0x1073a4c13414e4f47e3dd58f411b86f1269b4662a27d153b2ea797f3af9d840e;
 0x20827cf24daa915decca0be0018f95f33da122dbc9d31890b45831132296dff8;
 0xc184be1457cd3f30372671039b63894ec186f79ac12d4155c363cf60da9c2b5;
 0x1d1037585c8c002e4fa645846b83aa46d418a7ec475f36a310b5e93ef30b4f19;
 0x1bfbe62e3714574bed5c8915cc913e23ce5654d217fa8933208cee6cd2a7a733;
 0x9ac8a47968e147d7abfcbfb80e479a5aa83ec32fc9a21fd80277a05e36d6900;
 0x6673e8c09274a6b074bac39a9280285cb628f4c90f329c27d3ba1d79b1cc17d;
 0x2a513229a77a36862deffa4a24f4e1d5602d52e7abb7734cb6a5bfb006a14c70;
 0x7aa8c2df4a2083e46169b3e24fb2d0a9867ea17103a19c13fc08f832aa17dc2;
 0x212c78bf0b03c88fe1681497cea1b03064c87db0aa244f061d8135a365168163;
 0xd064dee824928d39f2a8be7d2fa583223c33995784d228839adde2559592592;
 0x3a58dde40365d7a0250fc75c67454329da04685e04a51bf51854954a6af915a;
 0x70e75afdcb3d8000ab4d459e8be1c4c0dcac213e37c3443d5d33de59a31a0e1;
 0x1dc99b8142e7cc81ec21bc7e5b37dbe2b29e69c290c6c67aa4fc3a7d4d6f17dc;
 0x2f160a3625bcdb7eec2ebc6a27f6d3aaeaa28e9ab85df1d2c1a34126d2c648aa;
 0x1ae4132fe8261cafe562823d0e2f059cf7917203bd3e1ad0d71b58a0f0804a67;
 0x24d5f4bd7441dd4ccb80955ecb60b72e676401239370ad526851b7b2358809fd;
 0x494f46648ee996ed2e7f654ae6c07216c090b6c4f3599c6eb18aa4e7cb761e9;
 0xf5f67afb9c5934a2d662532a7ecbae90ad260df4189e76f71bf51ce6600ab1d;
 0x135cd20c46aa1a429fae22bac540071d4baa5aa1f7cc662549c2a115e1a0152a;
 0x10b14b45ef38b4d3bd1247e2da3a65dfe290fd02ff1a15ca598b05548d1f93c8;
 0x22bfb1953a1022f21f1738c8067d26e250c3da6d950f0c17a26a420f898c166c;
 0x22dd1a3efcada96371c4b909e8c42dc426e0e040d152910bffacca1ec9dc4b72;
 0x2ec9e354b5f7415057e69782bd7c0db477b2ebc45909255dc90dd3e6fa157173;
 0x1d176d1f403b4a44e598c6dc34fdaf9c08e582e542748d9f18c9c89887a7ca06;
 0x57d65c1955ac40ed215d39c30bc61d015e505e3212fbb230cc61caf6dc9ca16;
 0xc16cadb3191773117e0038e8fa48c9c200bbfe9f61359979c978de8dadb9220;
 0x228354c24667b494d2cd53dbd85eef57c0b3621228cfc75ef08ee11fb331521d;
 0x11dae093fb04008a9d994fc7cf27d09ec0e19ec3ad1d548b5e1d205e97de99a7;
 0x1e24d8a3371d286d6a87358c6acd6757f732bd816b6c77e2193f456c237f95d3;
 0x14f5fa99460312481bf2b2c6082e5fad5ac3659eb5a13978b2bf2a26627d076d;
 0x274f78864eacb329a3ebdef354bfba6a7a5d20aa8ca57917c01d5ea57bf5e449;
 0x1aef2197b2a3930a466c9f2f8ed512af424ee99cdedf0d939bf5323cc13ddc8a;
 0x241e5e13407be4e0e123f9106ba3342a687e6c966d288b3b7feda4af532a422e;
 0x7914b11b3cb937283ee3129dbde2435825df1ed64d760a62c30aebf0ea6d522;
 0xd064dee824928d39f2a8be7d2fa583223c33995784d228839adde2559592592;
 0x2ef64fd1945065ca12f48afffe7527ade3289ad350ffe9dcc51b2cb05886b4ae;
 0x1e903fd8974ca0ef97c187e30a5dacd75151b3de2615bb2b832a6c81801e82eb;
 0x20ecf1440148c2b31f9a3c33f59da812efa0755507284665a1d5d4bcfe47ef85;
 0x15e956ab5a1c5a357e9de409a19386abbac37b453bd1ddd174000079b106366c;
 0xde22a61fd6607441d0894264777d660bcfa0cdab9d1da887c81e70c7bb8f7be;
 0x14a1ab44de8546185905ec2bfb7e9b0c8a330266a62fba53b8c5356cb5f20e76;
 0x1427c18b34b9b1962db5e13937a3bbd61a2af9e9b3760eb42ae17394b9c64ffb;
 0x276b0876d63e316c4eb32dbb64a4f4db99aab13bff6d666aa985abba4e9c0b74;
 0x1856468cdd489ea75e75dfef8d33539afb3c3e8d57e0725554897319c692bf48;
 0x23da22d7fadf8ce07944da0d1ab4f4fc9e2d2bb2ba50909ad99c86f556db0481;
 0x1c41fdd0f5fffb3d99ddb3a2b67e62a13e0dbb521bb4afedbc54c7fda3406bf7;
 0xf0bfb6289d76f0eebab2d4b5fd854e030f11672c8f362334290e0cd1f9fa051;
 0x18ac33130e605df004d682d08f9b16b888f88c3e1562bf08a24f7d254ca270ad;
 0x2befdfb192edf72525e96cd3aee3a1e54d4068121a0eb34d1064e8b7c8c44267;
 0x7839fa38ddc35348448d92a9122d84ba951ccefcc88e2618712d4ef896b7a2a;
 0x2bc35b2b57bc9b2be7b8a728125403c5a78c2f4d645da33b408e6cc79674d515;
 0x1f38bf25ca2c67ef958d3e92a44c3b4b80b910d3e10c3d0ee768f28628d6d7c1;
 0x1cd11f045b25737df9183843f5fa01f7b5ab00714100f0a05bff9372f063b52;
 0xa7f87799313df2c5edcaf10983d8abf938467fa5df74bcfdf0d51efeca406c2;
 0x718d416b20114551ccde2747cb6b15e889cc3233fad8a339465abc3273dac24;
 0xb45368b0cf6a77ac6e73ed23f94d5f8fb90a77421972dadc0d70c17ce39cd62;
 0x262dac40e77efee5a07345c63e77e946aa5d7640408dfc0dd0f27be77f97ae9b;
 0xea488fc1f7afec912267c19315412c10754a080c11a7873ca4d027935fa8b89;
 0x297db1b6f71749696ce48fe0862fa63d5f28306715a19762ef8ba915b9fc49a2;
 0xd064dee824928d39f2a8be7d2fa583223c33995784d228839adde2559592592;
 0x156c90ff4f955e0fc967223524cad6608e4d9cc8715c249c3492353730d500b6;
 0x1f4644da64c00905c3a6e15ada27cf593998574f6ee744e85fa9723345632886;
 0x10d4e58ed6e17089661c0bccd2c4564df12ebd6c4a88115549e7147491c671cf;
 0x2ad782fc25c4f0db520280f8dd92871f7bed6d0e23337d36df2141fbddd7049d;
 0x2928371625d6dd4de31102aec7726a15d88df0da173ea8a047e46e4562162e5e;
 0x2665ff9e95204c0eba710556e91dbddec9f5060ddda6e898a06b9078d170abc3;
 0x110d5e6488836ae4bc344cbe2406f494dce067adb21d69eb96b43bb7083c0b1c;
 0x16f7045c1cfdb025d926b966bf994728ef8a9647acd20b245ea1c41ec07bd704;
 0x21533d8130aba1fda6a31d4be45e3b6f27e1165cc7acf062d9170a874f44566e;
 0x29b6d6e0065b8aedebd2048ffe74b6ae857373d583adef571b7ef4d8c1376cbf;
 0x2bd0d29ed27a49e3cf5804bc515475bd2482830530485f253279fe3df313651f;
 0x2e5a5bc179f78f549317605f271654bbb727f5b35fa38918a308374a221b30f9;
 0x17aa3fb8d187b2f16771319c0890cc9a814c4fef3c8fd90277eda73a7fc9c1ea;
 0xfecef506e9a1c5363eaabd2e5d75ff06657ea4a701577bcc0d31cec282e6e99;
 0x104e7bc5cb52c3949d4ced53464aa25cbd419273c7159717d4243b8ba3e66289;
 0x2e2d87bbd2649ee3d7feb4a665a658432b9864c9a4d3a5b52bb2813f43af845b;
 0x2a737d085c1ecad2baf1eba7d7b79f76f3385ec88cdf0d8823bc721e7f7d5ef6;
 0x134ffef044d6db42e7de09eb3151188391d4a52ed4df145749fc20b4d0aff94a;
 0x1f46b43cc2e57fb9f22aeb6cd6c9d671cfd6fa043702b613f3de6cf5dcd4a648;
 0x1427b946ca939159e1f36e6a4e88d850c84f00698173d8ded2dd3a649ebb811f;
 0x20efae422eaa4272a255d02f80c304ceb0eb99dbe70e734901ce8303b7e75996;
 0x1fbcd3f2b5a6b08a9f835d2c56ed46fb2b9b9f0008e71fad6f072cc23ecf4e73;
 0x1ab1d914d85a78fbe7db057ad0251cb103d0f1fe4fa9f1565bb1defeadffb560;
 0x185d3cbbbd397b4202e6d2d23a5475ef93aaae25e9c720a849189b38475f3ebb;
 0xd064dee824928d39f2a8be7d2fa583223c33995784d228839adde2559592592;
 0x9a33338a814ca4f92e0eb0145510136d27d1a970e859c461b90350506c0ec73;
 0x134919acbc6872a886527ad4607df32a93f8d4f86cbb15cccd389e3cff0d5595;
 0x2988cc231f59a14253e978202e190e60904d3641819600eec68e3bad58e6321e;
 0x7a7e7e0247dfb327857f6cb9b2cf9102847c8c16209be817cc8988f4aee731e;
 0x102415cfc2e84e3b54b636a1125c5acc86ac2414aa2a4a36fca51c0902e99a2;
 0x1205491dfda96dcd74d0ea64c9d05b74a7eb0b98cc4dce972e3c65072ec779b6;
 0xadef8dd1998f07ebf85734cd2d480c380b3ceee9c1669827f9590f1767dc148;
 0x225f99bbe94d5c93ee09123f4655dd2d6bd80aca624e4d8f0a064054e232848d;
 0x1e8c19265e6565151258ea11206b5d8a9356cb614709c31e4167046d52dba14b;
 0x452cbcfd4d1de35a869a85ac1013082dd4ac1470e430452d4a8ea1530f5a3a9;
 0x29bb179886a2e49631442fcaf681e790a8903c96d1eff6647945ed626dc4d68a;
 0x1e06f246e926b517f3de008067cd6bc9f52e8d382c458098bed8c4d2cb183ed8;
 0x92a8624e09cc127fd7d1a32aac8383e510e37d6beca3fa117cbb1355e6eb8ae;
 0x29e31cbd24fa9de5d401438492f9b920ffa56adef762687c61ea562893ce02e7;
 0x1d47bb665d1bf9254c3ea59be757187acbc504b5378076fe029c4570f835722d;
 0x224f1c92c0c3e84e360222c40aa0f4311563bbf62bc9f255a3d7641378a2cb8e;
 0x1021a099460d801d171bb0db1c7972013146d1b09625f028bdb55242d8c51f8c;
 0x1cd67c97e764b8097f62c6402fccdb45a9bd18e0bb4b41ae08c2a25c276426b;
 0xe5dbdc0ab1a14125d19d7eed9cc36af6bdd5fe07f8ff269842f0aeba902c2a1;
 0x1649e0489cb0aa3844e97f61bb769f039f60b9638524408e3425b3f030b5b068;
 0x2d8611f69f27f599ac672277c1f0787005b6fe3c162d836637fc1c890c6c70c8;
 0x19a828de992f3bb86650a8a9f3844ff27f70b612e158170f81b7e6b6f4eae660;
 0x157a427811761757bec0b2decd1c28acba88e70e8e2b3a7b53d732a471572981;
 0x1f66ff45f17e0ec5690cdff99c1ae5d22edbb0ae12aab18ba5c1adae5b36e52f;
 0xd064dee824928d39f2a8be7d2fa583223c33995784d228839adde2559592592;
 0x9c9fa00fddcf694e98845212afe04048b34923d4fb41d05f99d24955c609c01;
 0x1ac154fc3f42165840c54a350d8243a3a28f55fd038dcdff628c52e17f72aa94;
 0x28859cb23ee55c27bc363dae264a0494ae77617ba92f595dfbb1454aa2678ef;
 0x1fd179a66fdb3cb0a06e90d1404c50c38d2bacbfa030bcd0b26e6ae454e3f5f;
 0x87dc7319f4e880c7136373d13fd6fdb2e433f31e099efdde56de5f8297a69b3;
 0x1a93bc3018ec7d3475863fdfdaaab0233df37c3f6da5a966538b13818c15c43a;
 0x1174a66194739850644d05a902b25d188c67ac7bfa816f1a3b9b73ac9731c400;
 0xfde9ecbcc6fb8a9ce490e809277b9dbb717369641b96f84b3ddbaafa39d1731;
 0x21d4b10d2e577a751a1284d0d079d066f6bb300db35a9289c5f5eb39e1e4adf7;
 0x1b491207581efedddfcdf23376324b9969e36f6ba8018ec2eb055a5dd6f4f8e0;
 0x12490e92c38fc269311bdc1acd2410502ac8d7b3334e65ab644751d1c6e3ba4a;
 0x3c569375b94a021a27a56b34dfddd14c01f7feebe14e231e53eb811c0d4fc89;
 0x12f5ebe6a436e8551778858bb53f9780439eb09fa2ac457096d7158e7af3afb1;
 0x2817dca315e7d8c25ce85bca47ef2424701c91df547407c8920d4a974eeac9ce;
 0x237f87fb2661d3a16840d8b115116d7b61d99ef94043ea2fc2e311f63bfeeaa8;
 0x13b8b1ac45db6a26c854d447f2750c09dea12c26f6d4083e9e8b3df2428aac6f;
 0x1429fffd68050249e1275110a16addcfb1300f294d63c0b50b7d4764f4797077;
 0x27003d2b7f980530014a1f5e88c4cc2c4178613f657c2b40afc3816ae14e4e73;
 0x1e7c9269b68e8ff2ea5f21c376fff7f3c1dec1df43a0207dd41aad1ac7213378;
 0x73bccfee0274ee3704bac0788527f8708883699084d3ee9facecd19acc02d5f;
 0x1a23c2e99e22f60e0ecc9dbd269a6f8b56aa74bf318961a085e42375d92823f;
 0xb0b38a1ee81114a35eeeeb54d419459b1729450789f14202fb84f009f728206;
 0xb08bf53cdcd498a9fca9a0775d19a3fab7cd6f7709f007b0d2fb07d8ea7452c;
 0x1d37550ee8724571acc9ff409226d2075544fbe2b38276726ad1c8ef3d096283;
 0xd064dee824928d39f2a8be7d2fa583223c33995784d228839adde2559592592;
 0x8fce6150b67f549ff898958587c36655277440c4c8bd9565a7ba547580f81f1;
 0x9a3d90307cac625bce9dd71e513f14642153c7c4a411d59f5db597fde888b44;
 0x5e2cba2a305c29ccfe1a49bf1cfaa3f00f097ff163feb7308c40ac654c594a2;
 0x151eb4fa0b1ce608925e2459726afddd5ab7982d4749e6185e5f033d1893ade;
 0x2e3299bef41097ad9e56203ac25eb52612145c8b411375b15be4c60faf9a0e8d;
 0x2b5a4ff11bba3074f0e0c3dd34eb3e21bd00c753717f19509c49e2ca01ee48ce;
 0x1ec7a76d764fcac86c55ce076344f7bbc51826ccba7e90ac703216841fd78931;
 0x19fe7d31b79e7b1a85ae430ba472cf699a814227f0325d957ce13df654430b3a;
 0xc1066dc7ef478b2ed0fe10c9c7a0bcb9a7974a4f782d03f248087fac50ec851;
 0x23b371f53de43570805ed4c382a4e2afe26207f1e280bd963347f973cd8e26b0;
 0x15b58fbe273944415ee68b4e237fad7005ced82fd6c2f8afd13c84eb29488b19;
 0x23d8929ce30fdfb078938a291dd88e7f7a802f172c7f9d792ab7aa6ed0866b77;
 0x340691f3b793cee0cadac0b96aa26bc7072c5d1815117e302afa970e6449ef8;
 0x274ddbc823611ed63e8cbc2929430d025088373ac3be564a44a739d11e4b6ef3;
 0x23a37eb726b1fc29841728eb657191d290fa6aaac92636b177bc582465f1af43;
 0x18ee2248d9512725ba90308696beb3102e7ea86de2719d2c52b4efc02fd0223a;
 0x40a14cf4ef9e74d44383ae681c3ab35d7c6cd0ad5d94ad8fcc5050e203ee6bb;
 0x2cb32996313c6c6cfbcec54c4f5d5b5057bebbc4fb0c103b9d1436726f0b7083;
 0x2b7dafb754789ddcb1dec0ce4ec50fe340d6a3a37c8d81bdeda0755dcb14c344;
 0x13e442da971a4c71620b80f9cad48d7105535596d4b8f1fe550c3ee07328c440;
 0x198e90225a0ed6b87bd847a0102a61267f6cee4d77aa631e355cdcdf93b477d3;
 0x2006cc86ed54bf7a5fc389fa5bca90dcd5269aba4ddeca95de1719ed8ab63777;
 0x889ec7712c598251a59839e389dee66f6d9946d275a60c2ea2566cf586edf98;
 0x511826135536efaf9f5f21aee371125bb78412a608bb6c2b6d97882b672a08a;
 0xd064dee824928d39f2a8be7d2fa583223c33995784d228839adde2559592592;
 0x2f10170d2aac17a22b211248629533d81da00ca55cd8d70c6fe1b0689aa550dc;
 0x2a35dc09d4488fcaf436c893a13d4489677901a07f875537c538048ef51dd771;
 0x201b1978cbd392f6ce28a5c8d8296732f503ad63e6fa616fa639d7010f2455bc;
 0xcfdef165aa6bea35bddbdd97133f24fe5861913c9b6274f61bdb8ba42e68ca;
 0x24a14555c418ce41b24b5bf1430ba76791abd955022ba31e9ad2cc3a2bc72868;
 0x58d12e15c9d023ea1348b2dc5c9dc2b43c5854d72e3fe9841e1a2b084859ed4;
 0x29e5bd1a9bad6bebb5aab55558fc375c88a8a84cc5d7f3a569c7553f6b4abd29;
 0x1d203c249094728621279f6b8d53a7d2aca571edeae202f72656ae21c825f638;
 0x1cff362b0f9265141da25915b3ff9e4fd8b33d301a1cfb4f606b475fb5d2153b;
 0x6c0b55e10a02f6a9e5e8653b6f52029e076963f51f5a7ef4c2483781303db61;
 0x29baa73ca3725df97d26afb6e2a1a781059b81f8109082c3db2d2d076ac910a1;
 0x16bc71cf059b627baf4fde8702141c5c2ac31a8620a25f36f0f479a2749be7a9;
 0x1cb4f4979c4ba37235dbd8de125bdd0bfeeda74d1dbc8f87a9108468651cf8b7;
 0x1d9097b4f48e52e207dcb5ada14a004918dca62a16f28760d0516c3ccc9090f8;
 0x2cf444d1a5c6ed508013d34ff40f271027c9a9395cac64e6443cf88ad7481201;
 0x1af6065e84bc5d9f653c36a0c86b0f0d9fa8ff396c0cf722c97b8736aaf6ff0d;
 0x2e2c4ecf622db6f1e55623697c70b3dac0850e0369a2eeecafdca37bc120d719;
 0xae82700364dd6c301ef26d8440a1e0fb71e410355cbf7981fecb0e8ebf439e0;
 0x2b3bc2007b383da42e4f34269a47f629392643c0fd903029da5d60540aece8cb;
 0x9bf1b127c22cd17f462ed4972af3af610b5beb2818a9f405d852a168de34c87;
 0x1230f23e20b6011d5c3871017482fd38f82923d9eb4fbcf6c4c12fd744c8b7f;
 0x1b47c720f543277cdb27fd57b57e4a88be4a17f9367f5cc58a541ecd995005f4;
 0x2550ec7018dd8a12e43571625d58cbffc02e10c95e0e9297ba171d6087dd799e;
 0x2d357b96b3252065e81b5f1406be8027ac20d3919c668a746fec4e3205260dab;
 0xd064dee824928d39f2a8be7d2fa583223c33995784d228839adde2559592592;
 0x8500e01d94de904d7223966859b160af3f73ee1f67208935a726ef1f04a21b3;
 0xae88a58cd6d7dd1d38d427daaf10cbaf3be27e5abc2c2dbf94e6f4782cdfeb7;
 0x2356cf14cd716531ac576e30978c3e9af33fe0f5465c6928a70ab06769fb7c2b;
 0x4c9cc7ff1e61240f1c0cc8239aaf4522f564780415fc47bffb1c28fcdd5efed;
 0x2ac119534017f94c103fb6199dd0c4bcf237d435294d16269d69dc39be170eb7;
 0xf0389ce2af0f62066e0f0aaab541c7f1e013fa0edd0bad0c454a9befcff9b60;
 0x1df984d5fed72bed8d287cbe3bbff9ac811b56155a8d8f768b7222620bab2ab4;
 0x2464b6b8837edd47eb61562a8c1339d59446dc30b12bfe3feb6a676a5754fe1c;
 0x11e670fa739dc17de5939770830d3aca8a79190d413a8a69280275aa8848096a;
 0x8241341db938388de2e2f02c9f6dab7f2040a2a0fb2d674bd160c8fcf7513e1;
 0x215ff7a8bfce31939d8413ba030f72544092ebfe06f99f61100a6def22089576;
 0x2c7cd496518937ec37c1a7ce9e231f15087c0f266a2b6d894bee197b94b9cd58;
 0x9bc5b3a291f8de24754a6479956a704772bb305f1ab884a7a57a49c6ebc8d97;
 0xb15a0dfc22c6eba5d6617504732df69e30cff2c417d0dd2f1cb49545a026368;
 0x299e24a6a2df4e3dee797a9d9b309af7f38aa11c61bec87b3d9e01bc1b283474;
 0x14a1683e0ced5006fb58bd5f1e8fe10b5b4d5db8af6ee11f3542683d5cfa0e6e;
 0x25595e5888505e87a18dd8e2f3fd998387901198cc9823557e34167d2b6f4220;
 0x1a8ca160cb03b1c6e074c7ea982b1bb406e4b996a70f430da8a7855435dbcd8b;
 0x48fa511c78d046fa7b3f960ddba5eb39e753e40c03e026a13fdf2509362717;
 0x28606b25ca030890e0ab9d58ccb09875465d368c8fff1a9401a18a046d929341;
 0x99c988ee50b5a86686570aade7a07d7f3de7d1ebbe4a72161214fe1f59501a3;
 0xd423b8393f806bb9445a55f82aaa3663b257bce07981b55a9dcc640f9b3a6bb;
 0x20fd15ccaffbde08b904a96f9a18ce5e411128da59c299ce6a1886ba554e8858;
 0x2b8b731f93bbfd2ddf132f1b9f37f820ce2efc76485de21bee2229d03d986e54;
 0xd064dee824928d39f2a8be7d2fa583223c33995784d228839adde2559592592;
 0xbcb4654350348f216da47f8a9085a24211feb151a906c5852a36eb7a590e5e8;
 0xe0bdd096a483b3c7159aecbfbfa52a4b66e7704b05a7df05c3fc79bec0aa903;
 0x2cea662f7c24e8a6111990ca10f7e539dca435c022fa5447ad17f1407b9e2c3e;
 0x260494fff3079a35eae887c593cf5791509815ae31538dcd7432ecc6c00dc0ce;
 0x15c010a4fc6cc1e54cad7f89188e2392df27f7d6fceb4958b7ac68c23b8deb0f;
 0x2f199edbca4bb59669b0e4ddef33a7b45821852699ad8b03c8d3dddd75e8b58e;
 0x1b63017c3c4dc94e32f7c17d67a31901875b20dd6757cbc80eefd96bbf73685e;
 0x21819c86119eee2a93533cc0557b7095119a6c6347e702aed6c41cdeb5436677;
 0x2c7ae6aae298a99a0dc53e2a0aae2cebb636e83e80f8ec2c0ca5e6d30c0de075;
 0x241559cb0c89c416bea1ee0866c17aeba29fdeca75ab98d2890d7e10697d7eb5;
 0x21de885c1616f460af9be2385dcb90a8a471f9cb4a4be8e76b45d0d0fe3f8e50;
 0x179ba320374c3c6c268f02176e13cb0d883f1ae24b145769035ba0cd28879e67;
 0x1ce20457c1471d83720591f79a33979ae70ee1e3830011d9494b7686f90434d5;
 0x9bc17ede919cfcad02017b4c83cc9e1ca6d4695eaff8e983c8451643cd7eb5c;
 0x10993c2085ece5f1f09343dd532543213ba3f046c5a39fca941374a9e8975c19;
 0x11e0deb1da2857341a2c4e2e59d5731fd240da2dad90a1e815b706f926a8f657;
 0x15313d500d879d6db9446e5465f9c08112330c9d1dca21b1cd298117456dc175;
 0x1a3da97fcba266c29d2f3b755892c4438cca1703d3685fcd263728372eb19dda;
 0x1ac3bc17591802ccf54210da2d2bf627725e11a8605503966732d16d82c7c0b6;
 0x13fd9ff54bff1a560857af2a620b2cb2d725ecdab99603c58d4b3d8311f86bbb;
 0x10cb890d09d7922b970d479473995d79d935256c9fd28f62212104d69f3c38f9;
 0x131649c6c37c467b3f8d6bd684c6cd121e1414ce5a2647fcf8d29c84fb22646;
 0x2784296e81cbe1ba5262170b35d24f5a9f428577c73f51888deee3bffb1245f3;
 0x262b646e6406d39067ecf4cd1c4e7d6dbd8f0929a1fa778906f709b8ddec0a7;
 0xd064dee824928d39f2a8be7d2fa583223c33995784d228839adde2559592592;
 0x2b78023b50bcfbb73b4497ddb0b519c703dee853fbb53438f906e8f03379822b;
 0x1834d6485429196629dfc50775e881aa5bc653d6186ebeaba1fbfa70d5459977;
 0x1e223eca065f07910015985c8185846bc6104889355c02eff9966f18aeed7383;
 0x21ce2cc395f1ea9eeb8a83f76d5ef268964304f891db51b907b57a39d40c74c0;
 0x3010da41b7bd91017bbe2f73f28d4847f1b15f7caae6f197c51aaad94942d5a7;
 0xfc7aa208e89f615b2b5ac6c1c84db0c87ed0354d3da012a505d3718205f8898;
 0x13153924c0fe679002dc1912a9669bde6c0bfc56893155fdf2e96e05a186b0aa;
 0x1e7ec9ca715167872d062b6a2f92ad6b425a3aeb45e5a44e0798451a5f3c6af1;
 0x1839eb87798ae0b89e6ce405734b770fa2e6092b0670b2f59fd93500ba32bc1d;
 0x2bd925800a8f95d0b2b6ca1ae4aeca0fedac4fbc889f464be243aef61e35d531;
 0xf1ec631ddc6f753f4288baaec5d90881966062d8e00a94d1c35caa5c1f87d81;
 0x9ab5e15c1e1cf58d46c55f0df4fa3a56cf3a41e52664b1a125bf3388887a1f9;
 0x2048f6f68b4dd0127d915cd6d7056a0104145aee77618077505619117f588ded;
 0xeed124614cf28d97c99c85a0a1456d303c6cdd2d2703982a42dd688b65559a0;
 0xe8fbccfb62b0842aaaaae01e8418d005687d3511606ee56c978d0dcfdebd825;
 0x7823b7784daa9ff5853129e7555f2fadb3898b5c4cbef6f4dd5d7e8c78bb73b;
 0x161e2a1db0ee0e75b26abf038ff6ba8b396d0c03d27b794a2eb64394680db0ed;
 0x2816d7a51708d99490bd97f5443df9a5203608feb1bcae4268d3da1e5198dc79;
 0xb298bfafa57aebe549b8f2b0f98554ae00a1761427298040bc8104ad81843e8;
 0x5b5779be0c8c88b6ef985df851f754310267048c6e68139baaa4b41d02cba63;
 0x2954e80ed49eb91d655f32571d6ed24724dcd6d013c62fd8daa0661b4c2e6f75;
 0x11f97bde1a830e979a7647e0eaf37967f2fbc2952bb50ca4575961a34b43ad70;
 0x2edabd7a99b98c5f9f8570c778e460dc19c4accd2de09381db2ae25b87affe51;
 0x285b59b5e4153c7188c7e918dffc0ef798d15695c9fa2921aef01e87bdf9bf98;
 0xd064dee824928d39f2a8be7d2fa583223c33995784d228839adde2559592592;
 0x8ebe850428b3b2e7534420e85cc70483a11f33d2b5fdf04f61382f7a12e9594;
 0xbc84e22a29a0c39bf8854d51235e45e1857ea3575fce20e891ea92d8f56de81;
 0xc546f855e8fe5529a31ced2d538dce04cbcc05379ab4f8dcf5a05b8e0030f98;
 0x4beff2ac6db7fc5ba1a66114ef2591000f8822497b661cf15e052719c05209d;
 0x17fe23f62d221e08af428582244a3a31d64a2fbb37f58f8e94bc719b2c4291e0;
 0x129c6ab33dabbe60b52c9444dedaa047775dd01de878636cb80b7d014fc98606;
 0x1ecc6d3b8bbf86ab614c85e5cf2c5dca31d86d2abc8ce91af23d37b52ed78562;
 0x2fa06eb4828858d3a737fa5170fc77e726e8a0cda438a8925fd55e593e204419;
 0x123d6c4cc8a7fd77c53de32f88e0e06bfdd78986842c8691cf7f3aedc43fccfa;
 0x29638f75c4d7ad4d6da92cc3681384bcaa6bda0aa14503de403f330f87700abe;
 0x2ca5b3f0ddb7a5c6ef388e33e501e0fc41a8b16858bfeb10882bd838238ccde7;
 0x1e7e20601229dce04a57f23005d7b8ad0375d4efabb3e276a38a0cb2cce2b7c2;
 0x1bb9781ae7d7cc141e7b72e2fff39fef57bdfb922f8ff88bfbf395738bed4043;
 0x2617acaac7e8547ebdae0bf2063a2056e5b42e39283fcef6578b256fb8ae01ef;
 0x1524426376418adb2ecbbe82913bcf05a08c0db6b1f3d80b5ba1771d72b80f1a;
 0x23b9a081fb49052cf4b2521ff600c471b22cec1c9b9c32097bc91192099f0b44;
 0x1c6cd0f87731287ebb12883e63991ce5aa8c768499f5c976285019b41ad6a272;
 0x564f9765361d0141a69ada9ac521ba33139a1bec81b1c39f9fc79d56f93d89f;
 0x18fba1f537d0bc06888730bcff570f62c8eba352d2890666846ec5c102bbec55;
 0x2ecd94fddc5654494fb41d46c4c91d264b3e17d5f37791df25a42cb680e12a55;
 0x25168b700310216d4ec9fa5c3e3514e712d694a46f169f7791bf4b01cf23fa0d;
 0xddf38a36dac9337b4add0d9a33a2c589134aeeaf141ec5a5b059db0a5466905;
 0xee74216109c48451af32cd7914b41734bdcc37c60e505a9845e5689313cbdf7;
 0x20b4aabbb4bbb48c4fa8155538d772088fc0ccd14ec9ed274c7f3356f9799e0a;
 0xd064dee824928d39f2a8be7d2fa583223c33995784d228839adde2559592592;
 0x18de85783488e68b46584675ff74d2bad45d686a789aaf80f0ccf3e3c331d973;
 0x23ab29889e8aeae37282dae6aee3a16624f058208c74af503deda66641d5b82f;
 0x2fbc8d06de03926ff1c3114b375d87283388625872b2966b781d26fb2ba5d7e6;
 0x219e0c4d566bcb09609118df2231e65e9e95f6b6e1c6149617acea7083fd9ed7;
 0x5b21b2c119617eea6edcd24e1feeb1cf75560b65b80af1027be2e1f14a15d9;
 0x5456d41afae3296fd4b13f8a096629d0b471691a4a29d9fbe2493c3ec377ff;
 0x14001dcf0234cbe8b3cf799bce377883176a4904360f83fb5908b5b7df92a447;
 0x2a5e9fdb1272447d7e50bd0ef668bff9fbc860f191c1e0cad1560e74f6d231c;
 0x22949879c5b83ea97413d666ae0eb3739decdbaacf1a33742bdc04f9e449f2c8;
 0x21eb23c8742f8d498029de7d0170a12a031c49f992f07a96af0494454e37d96a;
 0x70541062150a2f25267a8476f41bdacb2b3579c7856ba4904999f92d0b32bf1;
 0x2664518ca87044340bfd8c5a7c2b863601b8226dd566368da36b808691b9454c;
 0x14aa81c9279f3505b744bc86c3acafd4c5b03da18129f6a2b67d73a9d8e7b5db;
 0xecb94b163b561ad361efd85db88614c69a89bf74f5ef3a9387556ca3343a303;
 0x5a6d9a1efabce0a10d3389ed1571283698c90e766363859acc910968968b676;
 0x16b4dd09c4b2b3942c0019d9d39d4212626c492b7c0e7178196899f497f83082;
 0x460784ded949d3691d5bdf7d6029ece2deccf562f0e12482f001714895cbc9a;
 0x2d634ad66906cd6bea2fad599e45912c992901508aa915f0c219d66373c4f7be;
 0x1658eb086b54351ec3573b8ad8201f5a4d1f0026b8f04aca66c44c16e7516ef9;
 0x135a011e081cbe5475a1d316b78c724e181126ef44a9a352515afce9665a9d92;
 0xb4bc94836903c9787cd22b2962a05c42c7bd08182da579e277ec3977418fc64;
 0xa0a37d07785069f47e18f245effcfceb19f2405ca009947c9d2cd95673d3caa;
 0xf8ecd23da135c880c76d216fbda0267d32aee2b4a8039aa5783034d66dda113;
 0xe88eda335ac1a2204aac356a58a3ca503ae4543881ddd282bf7492f253e1930;
 0xd064dee824928d39f2a8be7d2fa583223c33995784d228839adde2559592592;
 0xa4da37955db5d2bb893a0919e4d928361880aad89e87973b93638d9f46323dd;
 0x182420fd6b1d8bb94b35d9587499825eb5055d95f24c5a061f56af516e71c5b8;
 0x12ed236d1a3dec40061f9af7aad3cdbde95e5d41763d8b235c665d25b01151ca;
 0x2d2c50e36f2c2c402493fd98edbb914d591700011d383e289384c0fd26e46088;
 0x2e8ba0e65f5ee53abb58da0c792869bc7429749fdc88ccf7a429c1f35575c11;
 0x8491031ef5da5f6a50fe3e9fe4abccfeae091ea0992cf72a239d0dcc7000c0c;
 0xf4894b8ed58741566403ffb6a468cbe036e365d3b391b72bba73b3f916aed40;
 0x22727bcc3e3f1e76bbba95aa7aa2eb558063af92b5f624433aadbbb0ff33c700;
 0x1b120f999042730b4d2e9f4e22c528510cc26f6076905f37d5a3a6bfa19fd87f;
 0xb37ff36e5153c7abc2c0bd36db33be84dc7378340a8c6259deae5d1422d2f76;
 0x1655564966b05b47d171db24f81917a2296777b02cb30f893571217662009b93;
 0xa64dedbf4dabe0685fb8e4bfb4db52e4a3e1bc178bf7f49f1335bc3cff8fa6;
 0x21a953f0d0ca1d43ee920c54a8a1884a2dc58366e195f4a03270587bf385ffc2;
 0x228dc2c9d913d4f4588376be12a9cf6d55d7c59a14a15f9b8ebf8f0cb801a264;
 0x2b487e5c9abb4812830141572d8b1936b4b8cc3119a0038f773f3bcca83d49b0;
 0x285712493e67ed422052536731a32ab1920437cd807dcd658836beb912022bea;
 0x26c1b715b64f4ba9d47c1f97d99f91ea4b83ea105203bb5e4bbe8b3e6fabcc95;
 0xc188a42d4758ecbc3d35a73e735f3daca1295d0d93d01eed6c3a085ce1d95e9;
 0x2796103374b26554557f1efbf137c3caffec020e1de9d2e75f8a51b5dd52524d;
 0xe1523d8bab27bbf5fdb85ea4eeaf57bafeaf50481cdb89b80483698d4b47604;
 0x172ac77c37aa38790506830facdab06d091a9a98ba0a445020d87a548e68fdd5;
 0x1ea828b052ccc8c21c1417b2479bf21dbbeb8b07f1d294542e6b776c17a46ca2;
 0xc530e36f104f93cd29e9d5f6cc76b4982c8f06d52684ec9b6b6dbc6cf3e1618;
 0x257497d432a5ddb934157c1cf3218a104aa3fe58ec7de5002f82be85ff4a2992;
 0xd064dee824928d39f2a8be7d2fa583223c33995784d228839adde2559592592;
 0x9b0b4483df9298317fb5b068ecf3291dcacddad122d4f98ca84868cee25fdf6;
 0x1569ffd3186a443252de5569661c3f8eac7dfd987568aacb86e576d3f6894290;
 0x2335942544da68a26bb05c3c44845f0e9612fb8a6b33a4bd81b0da1811b1538a;
 0xf3fec305e46f3dec280a826087df17baaaca704840038f56f94f35406e6571;
 0x1c4fb366b69eea6c1ad580af7130f33ebe1ec91b044ea1c5697bcde572bfd4e2;
 0x11066a30034b0f5a0ac2e2c5d00720c5e11c1fcb71fa57e7c8dac938e7f4f8ca;
 0x136aece7d25ab58170f452dd50dbe69b1f9a77f060fb99b0e299e9bdbbfd244;
 0x656fe108785a97dff386df1e4e2edb6d68dcfc9cb961e7d44ab0d14847f3810;
 0x2132c9a946b2cacecc75bbd0b90e0fd7f1c864ec818a13cfc266379a48740a1a;
 0x26ce19f30359f871b860f7e740e1361a8dc3d4faca80890059f68742b50c1bb;
 0x7b34bb73c69a8befc171d04fdc512c2e6d29993be2aa537a5a927503d327f19;
 0x1d2076ef57a75151297521fe1aead57b361a0cfd90d9c56e5a4d94a03aea4d59;
 0x18b2d7645f44465de9d875354716726e36f092b43e11aa2feb4f749f5cc30552;
 0x29d9e936a88283376c4cc4105b7bde94ec648a2b02c4be0325ba0ee4e8e59466;
 0x8433318e395064bc720a18cda24df578cab51b13834e03f8303e988a8ecec7f;
 0x2981efbb1e761374fcb20715527de197d32cf4d87871619b505d3f5f67e0cfbf;
 0x28a84e7609bc4d9de494b53068730c0ffd154de77011ac4baa3a00bc1f565c94;
 0xb98fb0a42ca497662d3655e0f0b215aca776b94b0e842e7cc7bd80f6aa01470;
 0x92dfb1809ccdde8ecf61a6602a69fd7ab9ea0f883798425b9ca464637ca1feb;
 0x2229fecf42ca2b725ec5ab861ed051b30ad8dd362a8445e6e7f6e6d888cef6c9;
 0x2efa745708462a56d941659e4d63bbf2b15d7b5cb00f57f7d96de4987e0eb545;
 0x1eb88f6512326db22d5bb8e8ab1ce26efb8b551f8d6010438d0f26f972c9c868;
 0x357f464028357825ef34691fc07baabc77653105a5f895777bcc9fef6e4ca9f;
 0x2574b6b6eac59402740cd9ef0f50e229e4db641825d2fd7f0018dcdefbae67d1;
 0xd064dee824928d39f2a8be7d2fa583223c33995784d228839adde2559592592;
 0x22cd7ad481a520d21e467b2fa248d2cb54462c3dec29de294a16787befb181ee;
 0x1ea716292c21b4a96dc9e245738f17f364b4a9dd5cc762c7ab0a24b8ce63a95b;
 0xee07db295084e877f193bb734548249c566945980a987e853cf283e0de49c43;
 0x237a31e787ffab6bd803d4683ca9a5bac9ddc21219d119d5470a45678d916af5;
 0x22d591498fce7c5903d695cb79fdcabebb591fc68fe7a8ab4376279f3c8799de;
 0x25730debdf5daae2460cb78aceaac1540d1b32c4ac3fea8494a832c0ab9f4969;
 0x2f54afcc0ab9ef598814c0a9f83a16d44ec48ee96a06fb1dd7d8414ef40bcbff;
 0x110855e59ebf6c99c61bb7b3728db0141b0c7eb6877e3d867433277bcdb12ef2;
 0x100cbb38383038a7f72dc76e0ecb80487a1bd2afadb85eeaa6c4b38a6e2460d7;
 0xcf9ef03acb7eeee16d21ff6eee6b658c426551d5a346ec3d2226a74b9bbf085;
 0xd047f79f1c409f542bcfcac407087dc0968f9e0b82bc760d1ef72639bf0d3b3;
 0xc8d35b27373860acee2d851f3ff195897a5429797a40948ab0c18dd279cd35b;
 0xb34d4ccd429b28324635894a84e2d095c29ad520bc5434bbc004e43b79a3f90;
 0x15aa8094e890c3ce98ce64cd97f7c21445ceb3c863bdf8a788d49e233cc8926a;
 0x11637553427ccd52d28ef04c564ee9af0647215f7f4a764d97e34b3da65e664b;
 0xd77424bd2852d485495d929abc8ea1e5c2a07a938463db4e75b35f11646ff09;
 0xc48776d02d737edc95da3941a1f78a976c5051bd630deb38b10240cda1dba1f;
 0x23efafcc9a8ff43a2ee5067e9a631b0be21c1e4f028e4fa7cef38919e4f149c2;
 0x24dc88d6144669f65e8c8b0e0b84081de41ef00c3f872dabbebaa4ae3db80522;
 0x27b45f6635340a77f857c72220ab866f70739196835a22952186bc242cd69873;
 0x704b24632239ef816e17b12e0b1f95c1cf7b8f3367a263ae87cd628582563cd;
 0x176cb4987f9f3df738f3bc87712a4635656b484c52ca7624bd1245c2aabf3e79;
 0x227eb80636039b0ae67aa169b29b1ff9966feded7d239c51c6acb427cfb61f9a;
 0xc315aed179cba6ebf5470feeace0db2e1693c9fc11931f51265541c508ca784;
 0xd064dee824928d39f2a8be7d2fa583223c33995784d228839adde2559592592;
 0x1b8b75d83e3e955dbb4063f6ef293b4aee18c4a3be9227c3102d29c2a85df08b;
 0x62a3721fc4009918e908846ba5635032aa2eaa7489d5d74b13994486e1b621e;
 0x1f58606cb7e61fb55157784342ec52455c66fb882e3360b692a4677360134a68;
 0x41e93249e317db4958b8849dea281ea81d0e2041006620c78636354e20c45e1;
 0x156d561a4bfbc4b557aacf5ccc4701483f4c44c8256e619b6f7a7dae09d23c3c;
 0x11ed5fa9b46ad4b3f57a8c5084724469f36ba46cec847825e6245c4537a0e217;
 0x88a5d5188be741cd0e0ccdb10875d3fa01889e4f80e5be6ea7e127d5b28963f;
 0x271a632b843846485e2ab0f5c7d1e14f7275fc53b8cdcd8a743b7566461219d5;
 0x26c0a1c6632015e8689db93c50a3dc2e408d3c0521774aac099b931d7295c6d8;
 0x294070b0ef4e6a55e885a12b5874de04df23adf8f0a84f875cb18c4ceb8d101d;
 0x2f78931d96c5fd9d0ff47089e98809c64f5aff58b2d70080998bc0fe5e364303;
 0x230be21d8ea9e4c5d2139afd1b0eb61d14b227ea864c09175b23ae4a647d67db;
 0x23835945ae05c678cb2b9bf9100f51e7ffdaca93e74329a968c392bba321a232;
 0x187c39fab3ecc634166d78959fae651ab19b169817b7e508762ee36e8a88033d;
 0x194c8955c7e620135e624ff5abad58e58b5332c390e60f772e8b4dd477270dd;
 0x651970e3e8b816227d307071d84fdd9f417a2f1b844b7ec56a21a7b0241a684;
 0x188d9c9d0fbc3459f6a82532f1109a06c591d2b37df750c287244908f193eefc;
 0x3b8367be80bf4f8e3b9008aa9fc640b6cfac804451c91a6c51d60840f9e166d;
 0x8762e109aff306b803a0c90ff1031403458429b82dad5066a7c61c4fcd52e10;
 0x7e877480703f745c67b8bcdd6a1182bfabea54eec3b62b87f53e9eb6da0d5bf;
 0x83a1d0511d5576651a78abb8a14ac92d9d61a43f977cb5dc9befe2150e0335a;
 0x108f56572334a765f54db2146eaf1b44fa39b91203a58d3771eea19e46f3b58b;
 0x253717f1b3a60553ba8c5608d2e9b33db2e5aae1cdda665006620589183158a;
 0xf7d259d6a6986193bb88f21b9f687548b9793b1120e10386561ca5be801e762;
 0xd064dee824928d39f2a8be7d2fa583223c33995784d228839adde2559592592;
 0x2caec1da928de3ef257ea69d514c718f70d8d3820fe135dc81523d2e13494c2;
 0xffcc49b0327d4dab23fe993539c71e78cece70c65060fecf775248a4f3097d9;
 0x7d2f814a0d52f1676986648041c5ae57ec9b5fa328dfee5a22206c0f554fdb8;
 0x563d7a79d5f32dd2397acda206a6fa4947572ed4050aab01dc732ffeca2369d;
 0x2783fa364653815b9474a9972f573d171d08b4dbc9771054f0bc376a70eda070;
 0x26d7a7687e6c207f5fa597c84565bbe9d511243c1917de8656babdd38ba0eb81;
 0x1567832cd70e77ec20ef1041351577510628ac2a1c7d5c179c98315ff78c42c3;
 0x1c59c4c25db5ec760ad403047f3182e0c2db7b557883b227f8bd1e384a7b76e6;
 0x2fb984c5c36a06d07601fecccbdd1466c38f2ee47b7dd526a34bbb9e859a1fe5;
 0x193c691789f6f175105e969cabbbbc781119daac0927a2694d006edbc0845084;
 0x2934cca891879574e44e4b94f5554dce2e55070b19de421b4d2b743418b287e3;
 0x2223f7dc3c04faddc22f1c05e786dd4fb2837a1425c62d4defdcec15ff6fd6a5;
 0x267a1cd4eccdacae7277169d9000761606b0bdadf24dc97b6b50ad18f4084e57;
 0x23674c9dff69d9b06d1a41103f5b241f788624c972203d3a4804e2043eeaf97e;
 0xc86000f5a940dc4c26b7c2dceca10416c0de08242d8057506a867b181691451;
 0x237c120402aba89b701d7db41968e81e7ca9e63b6242e56d9e89b1e94b7b56f5;
 0x1f2adefdfe27e85d550a268e382e6af8e51b93d0303444311050a0bdc3a86b13;
 0x21026ca9e6c15e7e7754c24c15ef12d36969bb2505ea8eb9d24f21762063639c;
 0x257dbf207d8341ebe71a25c67f0bcfc71edcf46f5e655c2f94bb0027683e4ee7;
 0x297fc3567244be37e4b1ad88a0c3008e1f1326146b6588add2e12b812c53c7ea;
 0x2415eeb2220c514b4b50cee8df2f4f605477b540d75325287fa7df4957c388ed;
 0x2d1efae2ebd54890a00e868372dde24a8ab026c7397b54827bf51bf259371921;
 0x1f82db95c67b46b630a40310d8081c760e1bfffc39e91f179b99995a8e355615;
 0x2e817c24b08cf9346a21658572796f90b8132b6247e43a1d099c17b7823592c6;
 0xd064dee824928d39f2a8be7d2fa583223c33995784d228839adde2559592592;
 0x588c5021b24ccaee3b77fce64c0122f3cf21280619404967af6be821ac9e37f;
 0x191e71b4c665fd095461c7eb21794e3770c3b40b4bc0e22a210166e9c74aa0bf;
 0x29cb8c9eb9c4cf5bc6e1c2a782ac0503015efefe2d640a154e26b4b934dc9713;
 0xec1e3897905c451e98b774b636e1dcb80edbcaec959ba90d20a0286366ff74b;
 0x2ab786b7ffa171bb876603834679f4be8a18485f93b7b89f2dafeff334d5469e;
 0x204bbc64ac07613fd02f871122b8ef0206d670cff609fc1b2fdef7b8f1e1542b;
 0x1172cb8f6bfe22d7851f746626399b3c0536bdc6f8969c3b5ca6b697a87aba5d;
 0xcfcac24e6e99ac6a59d2946dfec1c87d4c14c95a9ce2e81ec8c8405f74ea79;
 0x25787156a9a5949b6493e08da731b2e15abb30e1d460dc238207d04302a7378c;
 0x246ac305851f4cc5079ed10d769d337af9649c46f374951dc674b2734840fe38;
 0x2db9cf683684eb9e2cc772571cf8da1bca70e222aab6ca7e60df039de8b23ff5;
 0x166212a0652ef46c22f6d8d8d8c53d99fe339c7aadc68b233c882f57925403eb;
 0x98c9afc1526b5729198f7f58b905563596143c611e1b2c8ff90dffc677d1e66;
 0x2358d524ec260f839956563785d1a727fb364547edecef5bf664e5706301a599;
 0x1901be07be45b4f8d3380b0a5e52c1e6aa94dc4f6f2e40baabb9f98fdebc91fb;
 0x92d99a4ade91479cdf8bcc22c05309ba07d86401532aafdff17bee681dfd12e;
 0x13af4969555a7dd69482d1c130eb70e05f0f9af3a93769f7fb5437173c71e1f3;
 0x28d3aae218aa0b296476d0dc373481f4ae746de4aaa1c8328370f17655614a51;
 0x14311125be69290b098c5ccb7e7a9534732886959d25d677e564d71ae1ae7647;
 0x1454832e2ed446d6ac9a981f567c57663450bb35ed147e4dddf8e7fbe30b0bb2;
 0x11055b5dc675e97c22358083da749bb066f8a99cf11a37083c1c991af56736b5;
 0x20b2ab6a88373738fec32590661140fc911f31be20d8a9b938717954ce5f1720;
 0x2171b013bb62ffa512500bb1ebad0e10cd39cc7094cbf806b10133a9f6ce3d68;
 0x13d9ae507067e98e67ca97ac691f2808251ba846c97091c99e46f8c03d6896e5;
 0xd064dee824928d39f2a8be7d2fa583223c33995784d228839adde2559592592;
 0x292e6fe5591c886319d394a3218aaf4a8fc00b2c98fc57a395ed2b52d72e5d1a;
 0x2e555bbfc78425a4fb2d9d8922252a1edb14ee448532800a36538eab6d3c3134;
 0x4b797fd25379849c5fa7039cbface5d5f01d17102671767c51dcc547a7c7f44;
 0x2bae8ca68718d729374e99bb9991ef4399fb9a5a14ff7361c52e4785781521cc;
 0x5ddac723ffda8067c2147fbae890884bf8572fb7b30810101de4369defb5612;
 0x1ec8e17ebce279adc46dde550fda171ed22736ce4e102cc8e36f3844ac67d77d;
 0xdc57f55bf67c1b68aa35126491d6e6b78f9883b5efa10b8f695e2a8fa0b83c9;
 0x2d3f4bced64b64b958b8d91bd0b7b168ba52bdfc7d5df18bbc1a176fde11b23e;
 0x2f10a6d7f877c814bc7693395dc357075d1c816495a4f03b0ba49d6d8d97a663;
 0x144b40fba529a8d725cf78c898112fc3e4826c83c1961332ed3bb0e17051bc67;
 0x9708226dc1bcda85d36d65ad6d0ca69340523e970daeceb5cc48c16db6cf3a3;
 0x1bc361e4208a017e152377add553852dae1b334c7948e008f7064f499916c154;
 0x218d7075025c32bd6ca4e15ccce886ef42a54823955d50d1abf906be69a1a10;
 0x2c36609083d08ad8df8211a51e75bc9b52691cf5c9996dee6cb39a13ab18de9a;
 0x2ee25f7ef8fed9bfb691d8a5e21717736795bbfa76df861492715c4b41261112;
 0xe02bebff560e49b14818c02e1535c5cae326071c0d74703b8ea9f1950e78e5c;
 0xa8e935c09bec781f68587e8aea897db4d3e8d643d4e8b65af941e6b56b35d82;
 0x24e4c8a3880c07950af15e4dd7785fdff4f46709f7e8a2dff46ea7670af9e69c;
 0x2d680316bb7fde988136fafd42ba36dbed8d09522f48ddb19a14d39e2305e4eb;
 0x151fc0242f88cb4b820f7960e519aa333c50260f1fac77ee841873ce4830a5fc;
 0x2a930a97b841a2680717d8322c463e7b4258340f87258c90f388f322b86a173;
 0x1a2d3151d244173a73624601b54782801bc6c0f8f7a70a3afc708a23b0af75bb;
 0x30ff291a9139cab6bc0b3568c21ad6e4542cbb3c6ec6970f01f4ab3f4e65a8b;
 0xc6142a38ef9e3709c786cf42056291aa1581aa5cb1e1c2aa01326501552075f;
 0xd064dee824928d39f2a8be7d2fa583223c33995784d228839adde2559592592;
 0x4478466a9c94183c431e91e2d96fad76caebc38cf4b6bd63d40a883887aa0e4;
 0xd2089c7872a5e0d120339c683d1243e0f56dfa30bd8ee38e9e9020be57cf9d7;
 0x7835f14f646ef12bfae699393ca8771079e5e5b105c549a6f740989bc71522d;
 0x2eb138b8e96a72fed66f988d76a56425930f788d23294bb16c006c15ba7a830e;
 0xd65fc46a4f555afe4d613d16960139d1b0ab9e97409be48d2c7d0ad708d57b8;
 0x5cb9d6fb0ea5d7c36af03889077124e159baf3f95d68f5c74b98db89b1fc3fc;
 0x1228b6eaa51d6497f12fcf864b7dc9d681b32176cab3dae788d5cdfd5fff3732;
 0x2c74a92c8d33ab0a358ff988fce0aa0ba475c783989734c9bcef6aa3d92e39aa;
 0x1800e5ce9cf840e32bbbe62d828c95e79c3e1c493ef70ff8743a88431b34dddd;
 0x58ff670014f46b7ba4bdbd48feb903fd37fb5eec4bccf5af21bda415478ecc2;
 0x21c73fcf9ad1b0107fc527d61e6d1a289ca1eb4616db1bf402579c7a9f141c61;
 0x2dab5b1427ba55d3fa1a90d83b0c569978e3ecfa9247509dd3f9e303b58dd0c0;
 0x13b905c6ad4434dbff6e782cf470c7f37cc129dd74580eedd8a8f85f984486ea;
 0x16542d30db773c54daf9fbbe3cc6329b0f1e30a5f27659b5718e073a6a3ff993;
 0x2fb9d2c332734cfd46c26f65328fccca168f58711368560028e2953c2a70965a;
 0x1bcbc6b5cb163a446455ed0879da1196a6bc4abe45d7b81af746f47db5292e7;
 0x1ddcf7b0e9bc54a5074e021add723164c981f6bd04db9e150e2f0e21a1a6a3d6;
 0xe49ca4ac1a6893b61701a02e1dd02a35f49e32a7efa7f297ac4d2c3e545b7be;
 0x268309dbe299749682f7030227677e5013880137014437f7433ad9e14ca8dea4;
 0x1bac242faedaafd205ffc4e05cecec603beadfe07666a7f970934a2ac6f629ca;
 0x28e2305a80b016478868cf732f9013b976fc92a34d1a4dca77ae572c3c69cdd2;
 0x145de9f18f59e36a93415b33aeceb48554a84eba20c56044880e1466bec0d0c6;
 0x1acb49bb5f0d3c9385fa202a23350e945f57259a6ece8a15afb3bff94fe92e13;
 0x26add7d9ed34ea73566b208120678707b1da9f64243c55a41189445672f974d0;
 0xd064dee824928d39f2a8be7d2fa583223c33995784d228839adde2559592592;
 0x16051748ed54c9e8d56e45a45a4eb202c4c91fba4ccfa8a05ee3a99100ef028;
 0x1a51e1a75bd54dc013a8365e8be4d93fc365ed1f85a41e451913a035c1a975fb;
 0x26dbf99d1718983964d70e45be99a786dc590c2b06726631e73e42cf19bcdad0;
 0x1132f8662c582598c12b82db868060fd02ab2dafd730d149f0f1c3dbb5c7540d;
 0xd20abd1b87b2dcc09f4abb60b6b936bf3196166849307a146bdda7953270fbf;
 0x1312f989d76c6cf93d0386523c2b447be5eee1a76770859a33e08baf79df94f6;
 0x28c79fe778abea865b37cb9fb6fcbff83eb5e3a6539a22c18cb0a7bb1ee3fe;
 0x19b577228ad8e6ee6c9b669d36ba8e0797ac74616e3efcc9e6a7e819610005de;
 0x152dd9b7778d894130a215abe32065d7adfe95428d02982301d4390896ac4a40;
 0x47e6db3dad97b60f47207eaa4dbf769e64880abba447ab42a64b4e9bf580f;
 0x16f9ad0b2919753c49509ba57e9c915aa32306664ce92ada426a22c9f6360d66;
 0x2921d7437d72b2235761183fef2292d581d60883f6f05163c7181e8930598142;
 0x361282380fd4190823218380191766a8c2eb6ef8f084426f9ab27ed7503d0df;
 0x2661574bc57b6eaa30224ba10cbf4c961ec5d3beafa17d846e660915b34b9ffb;
 0x2b50d64c6224a9fd03f14c5142231a82b313392062d70bb835116f71f861931;
 0x2e43be4ca9acd39a0b869ff361bdc22679619dbd7fb937ee499ef99c14b929dd;
 0x7458dcba827b917c731799c95185ebf349165eb8bd8837ad4c9a7a946acdbcc;
 0x2e565ac1c012c9b7001654e5c4b389eef1604d14da21e2cbf4682ddbde00ffee;
 0x2be1797b6ee4dab5c76f370802650571f72ff37afcd535e80c02a984257a4a31;
 0x13df73795946cbab79f5ab95a1ae07beeb368b6a672eeff9533467574cd5b637;
 0x271f3f4aa97903015b64624f4d65b15cd2fe5f18fc8dd6ccace0c520d5daf9ab;
 0x45e4c5231979d20d30f98e26acdd05b44c6101af23bab61b22b9f2ed4c2bacb;
 0x265d868fd9eb462095cd18e40ea2aeb074153cfc06fe0c62d268fc86e3fa1e9a;
 0x1c2acbdc137e6a8af39ad351f8e89255387e69c7d9cc4aa0cc0b4a3c9a2b2dd3;
 0xd064dee824928d39f2a8be7d2fa583223c33995784d228839adde2559592592;
 0x18b4e73dbe4d9c83510458712484b5a88154a64e4f000efd8a5d2d960b4d799d;
 0xe2fdde439a5f899cd7f813089c26f68018a3b0ecbfb2de15589e589c77c691;
 0x4f2b25402a03ac3a6fd61ba2e73b5acd1dcc221704afc22ab41ba3b158b7a5a;
 0x2ce09acd57a7c33da7a3083fd7336f59f1a21bb7403cc3152101127083df270c;
 0x1dc51c0843736ba1d7b5ca4ecace075a61486b9781deecb73ec0c9270880a5dc;
 0x24c96270bedcecc4ec08285665474ba417e43f1277878e25f64c7ed59d518993;
 0x1567b25ea10aa7639e7754e07fb26140e6b196466301266acb242ce0f80baa9e;
 0x1b8405e13b06a1190bf60e3fbfc762ee365d6e42a551c9449ac6e78c25c313bd;
 0x1ae7fcaa790af2f4aec1458d5e8fb9d2f6e9c4e1b3877eba711ad016a8f75883;
 0x230ffda3cf04839dda573ecd6cf6a765f419096e19c41a27e219f7624f63f918;
 0x1c821c8db96ded0ea28c83e01769d47e7cf531e5ee167154c5942dd1552c99c6;
 0x654e2ce5de54485cdbf636ff35aa519d3bb0ad0f65553c089035b399cd84ec9;
 0xcfb61bad637440ea70c21616c0021531b797dcc910b94583c7fa278feb71244;
 0xdde58a2d3a19ca8daced15c92f831571b71a3bedfff56df64ee3d3fea7c11e5;
 0x121e952932b7e95de7ec84c86576ce61bbb862ac2f13270054fe25b95540345e;
 0x77174b4e7741e4131a2adb24c6c9f223bf77e2678d9ae5b3279d86e55f87fa0;
 0x5d3eb46a0d9a2f0f47f0962a63d534c9a77d3927234620d2c928bf09ce7e5c2;
 0x246f5a9f3cb48cf1f4a13aea5a54ba53d8d3046b61871dfc1fb5d9f358cb51bf;
 0xa2e62faa91efb3dc7d4c6482d41ced93aefae8d13275135e509bb3a117b19fa;
 0x21eaba42c45ccbed93fe3468dc8b98fc42a9855e60ce78562080053784c20256;
 0x1e2cfcac1e924008271b086131dba3dd0044a03a28dfbb2f008611fec230994d;
 0x2c97d275a36bfdd250e2e2abfc4953d8e04d5e92795a914aa91a168f1a993059;
 0xb1d67cb1a69e071bb57b3f4eaed9fb9989c12e249c0900920bbfe0fe7ac6c93;
 0x1f0f655f87c30461e7c2d6a3b55d5092e4542c805f29ded8c499fe4603df979f;
 0xd064dee824928d39f2a8be7d2fa583223c33995784d228839adde2559592592;
 0x1c9a4884cf6e9cc19782fbff77ff6a2df0b1353c2e1bcc80f80685b4da9a9962;
 0x2031dbc469ef5d2ab8bbf080e779c81da08a138d18b1bce086d9650d044cda52;
 0x26d411c661443edb9fe290206a84618128d1e85e1a8fbcb9908859876db87376;
 0x21083c2f6587d4d94351b5e8d4d37ca1ed3bba605bb05ac45151c5b828acc8e2;
 0x252aa5220ba089fec5d79e776cfbcc3be42167e2b24ba6245dc60c7cf0fe818a;
 0x15aae505663cafd83758de1e586058a24e69295863d59c1221678d0a997af128;
 0x2d8e7eac5ca3205436aa38fe08be53a0fb7b57e4c35abb9c8dfb722eabc4b4f7;
 0x1d4b0338ca8f97e7f6da84d54af30e30d065138190d0c36098a69db08f44b97e;
 0x1af838255d6973d5b0b19585c52f4dc7ac7ee024b541e4c103942b7485a5f82f;
 0x301b9339d3863e05daac5aa39aa79eb948f6be9a56ade53ff27fe98531f1ba11;
 0x1e03df8a06e4161781c43cd5da85f9c521dd1f5987bcef858048020944852c7c;
 0x2caddd2b00b5b15d18a3ecb0d013c71966ca47d579403d64d0b41bd736ddb7ac;
 0xb87a369e470ab99e2c4349ce109985391d848aa3b60202f7a17ef6a0e4adf1b;
 0x21814ac94b3e32f6f295c65c4b234aabde202d9607b171ec00d826f998a6c92f;
 0x29b1228b3346a79953774564fa631d8aa6f2314f2c9216d4aa8d89299909f352;
 0x1a5e40ae67493e00371f4796181b9c0ed9f909bc5a6d9361f9b75b4c5f48d270;
 0x1ac79eac0e5bd64eff5d74fd02f19cf0a066d6e5ad8d169a2ae42a935f454e3c;
 0x1cc1592df343627349a25bda9ff38febef99da952ea6d33014b9e062d0b9c65;
 0x246ae2ade241e443bde03d8e2b323db4208434d53428628bf92a2fad2058ec10;
 0x18d00d6e9f9ca8e1f315aa97fa121430125eb2ed841bdd81f1efe69379f786f3;
 0x2a147b464ef73244b29cc4e4fd24a29f0fcb62711a840ed075c77682801b54f9;
 0x30188a7d39b26173b10d7767135b841640c15708089e2be2bf8f5d31861ae140;
 0x1cf70ee72aeb25c85554b6de9c01877c8ef5164a1e118250aa14bb0ff8cc5d94;
 0x2a27cb25999e82f8abee1351c8083c8393e5038113619e783649651c286967ac;
 0xd064dee824928d39f2a8be7d2fa583223c33995784d228839adde2559592592;
 0x16f3b44e7a69563f9b9cb04a43140d2c51a2a2641b9dd9ad5dd7b942b3898e6e;
 0x1ef9dba4b9fd5363a7c5855a1c3ae00c1874ef693336b606b1f25c4fd32c5b3c;
 0x3be108cd7d21185b6364bd86883fab9fc63c9356edefc708c05882280b75515;
 0x21631c522c8f458394bd234946f326f0a0e0caeb2dab4014e8e089f36b25d766;
 0x2b469c787003cdcf37233bdb9f3eed9dabeda742284d6f7286a426bc9022fa9e;
 0x409e474d3841d04d8f6a521cae62224e4d15d729a48f7af7357288e1af200af;
 0x239db39ca9b31c21ec61b7f3306cfd1a9c20b3aebf0ecf4af7df18c2a498ac32;
 0x3062a14d58830bdfe5c97f9111ca779b253e09f8337e457a6c4ecc1ba1bdd8fa;
 0x22e8958e08ed54020aeee58d8bd6bd816c3b99f53d664fe6c1bbaac2bb5c12ac;
 0x2689f68f2ccab8aba87dad5aaf8f24c89f24d94c33a3554413ec94c9309c2201;
 0x7ddcd764dbf337080c16b4c68e93eede25a567bde1f7dac0e3bcf6edfb4c472;
 0x293c704451a1aa66e1aa0d4c7dd56cc5392fd8cf7b8cc998f6a54b8c30b24e19;
 0x2cbffa47d2c28e5d0ec4a2dc0a168ae258368feea0ba17662168d4cba27906b2;
 0x208c5ef46b238daa217fe46cc26ae7460c70eb25fab5f1122f4edbd48318946;
 0x24fe6c2e5f21c4cba02f4c15ba1d07c732017ac72f262626eee292a4c3484c8e;
 0x1dfde7457418ea9643108cc1d13371791b90fb3a4346f4ea6830fc8601afa196;
 0x19eba78507eb7f4332dde5342776cffb8b3f53973e9d191b0f312f7f05c1e732;
 0x2be0c4e211e0892ff5d3f3b7aa0281e1602cd23684b82ba12cb61be1eba411f;
 0x9cae53a049def9f8088909b1ba59670f0d8a2180b04062eb2c8cb2c3893c11a;
 0x2e2adf7ac157ffaddf5ba5fd0b3b009b13c8e1454b54d298e5a50f15ba24a957;
 0x960206a1b5fd7f8caa23c6f979a77b2df76e53ca4071a30e96e203f6d611945;
 0x1709ed8801ed661f54156b3da294eb591aecded73dc4bab8e884618899d61929;
 0x213a699fb63a980c7dd352008ad46d6c423e77fdd87348879208531b1dcf7de3;
 0x372666a5afcbe6f5458e78471e9ef6fcfa3420dea49e713a8ce1c19cad53b49;
 0xd064dee824928d39f2a8be7d2fa583223c33995784d228839adde2559592592;
 0x17f4a43fbcf12508a933527a8912f2842333780fd30c0c46d15af216dbc9251c;
 0x2c5744c9ae7f6d8c3d5b66d4d43b95afd79ca38594b9049d886488cf10cef463;
 0x2dafa6f3c603c4c0b0ab7dea2b559314dff4f7b2a1a65894613d2194595f4476;
 0x2f7218004fcb62dc5ab37c7b3803626296dd6f876ea5eb4834eb7626c1d82217;
 0x6dfa42020ea166652a7a392a6cec8a63171b943d6853730df3c846e32176cff;
 0x23f87a617f1e8f021b83f41ccfe5e7526864953a9eeff56d62d85731ec090826;
 0x1cda3fe46da8e3f2595bd22ae9327c2d2968ffc0c686741a13456fe5b2185861;
 0xfa8625bd9c3af09956eb74e2f983eb6079a050c0186221b1a32ef5050969007;
 0x111520b0f559fe2476e6a6f48060038efb0166ff9f6bda812a02f793228af23b;
 0xc23dee172299609bd3dbc9f2ccfd1e3f76e594c5ac2c3e5ddfaa62289ed7656;
 0x105f42aec8a1b60c20e7041acb94bfeb6f6b5f8c5b71218fee02047d57c0c218;
 0x299f915785e8adc1c2378fedef3083e487db1f6f1807cc7bc66e51b73bc39147;
 0x1ef3836591f803fdb8a0bd89373dd79176fbc2e92ede7006faa5d95e9397d81;
 0x1a2785db4d9a3409adf3b7ddca9ec408b2f93044338ac23122588de468c59408;
 0x1a6ead13bcc1a5afbc63d85db0a41c4a031e480585fe7ae5fce9b64bc866a216;
 0x1f5996a035a306096eff22ff3aa805378e9f4e3ed56f9834f62144f57eb2d414;
 0x238498bc99b623c9fb4daf8ca4e4c87607338433a9bc2546c9f37c86af431840;
 0x273915d627d37ede450dbc5e96ce9489b78ee048f5756082227e62db6b9a56df;
 0x21c11618cdbabff657a20c8d84812b984a017810e97ffc169c585ee296fff9fc;
 0x203e0bf4be8fe2ad1f1eeb4926647caa4f6e429ce794db082fc07ee5330e7cf3;
 0x294ba4a28f070410c4c4f8cb5c09a56252ad05dbe4b5bccd24a4adb4fdf71df7;
 0xe403cbeb904d1582f7872035f81eeab4010de844540a9b2bfe5419d43f8bbb3;
 0x27c86e516b80bede0756a21db1a6ced3ac126996f64f9f6edfb2417fcd3829e9;
 0x26c02ced384da01a247d225b0931e3310f7f689426b3384c65bcfcf1a1e0d8f6;
 0xd064dee824928d39f2a8be7d2fa583223c33995784d228839adde2559592592;
 0x23c28b7d927210270a66d02ce14454c7608540c1c4111989c66fa5c83b953441;
 0x175c47171e64b9fcfd9a0e5ff2cbf87d0911c01f7cfcb4287a219dfb65a3c946;
 0x2b0dc6705e72fb39676c099284f87987580419e380019cec6529297780e9f143;
 0x2cd30e4b096b2ac50182c596fc4bd8de276e1d1f058acc010bfe056b50498347;
 0x213717e1ab4fe340c8edaa0f2b003ffa2adf4890ee9ab0bbe6528a2f4e436184;
 0x167ce1eb87442469edc20f5be85f41176a2bf1a7e44ad9a920605c5be99bf975;
 0x2c0874699b7fbae13046dae49db97858a6950199f9a3f3bf8238aeeb73501797;
 0x1a565a10adafab01ae826b619cb79c9c7420a140d41365669ec361b37cb5c8d1;
 0x2c8c416f3d61924456ecc73119c6ee327dc717b411a4ebdb673b48e8ccd1d4d5;
 0x267fd0effc34952354f05332b71fe925b3548f0159ee361467784ef8fb986315;
 0x2bd251e35bedda84bfaff55de37d2835277758a60db4a9bc4fda3571df5ae523;
 0xb7a443712b33fcd61028542457a0da3ab1f087b58aacb25439af6e1e55375a2;
 0x2404133570623570acc718f19ff26c6b47ba03857394f55d17e8ddafd46cb5d1;
 0xda485d8a8d3a97968c8b0789dde653796430641c4dfce40db5cbaea4f392071;
 0x2146d7115c9adecdfd5ba061103729167ca82a2e9e58df7177d10645a23744f4;
 0x2c957d723ab55cfa5de8995ef9904c3be5b70b5774a12d17efd71d7fb10b2895;
 0x80bc3e98f6ec909c5161c498e0613bb736889eeed8ce7bcc93bed02f4bc5be6;
 0x19dcf73cfac4b44c2761e024d6cb2678cc104a528c02799bf3a091908ae780cc;
 0x199422fe9fa1f5d2dbf402c9bd634d4bdc9cdaf70fcab9d0ebfbafd12a02e49e;
 0x1a4077b1cf49f41fc3a2240a37ae60309d6941b839ebf51e1e118c16a23c6aef;
 0xe53e5ebd64346a83c1e7f33878ac8753b1b45f0e1747f680311eeccadd89a17;
 0x5aeff75c7b60d39afafbcae4f99e77e223c35e301db1dbea5becba73535885e;
 0x1f9764d4b036ee9b186d5dc379c2826b17595849ac829e2d52230e243fff309b;
 0x1cbd64e54e94a1499df6fd784df7709f93942071463eab3db602a804337a436;
 0xd064dee824928d39f2a8be7d2fa583223c33995784d228839adde2559592592;
 0x190f2a683d41d29fa79f653057c0851c76bf7301c355e46d514e62a2116d7188;
 0x358bdeb885279de421d0b5bced75e4b0b909340f8a3445a3dd17d76e4abcd1a;
 0xbf755f699b7e4252b3fd62793827e613c40b0c1285a2eacd4ef65e3abfd281;
 0x26753dea98885ca2c4aa18a49b9162277722858ab51e3a482275278c53842496;
 0x2c3bb4bee55f665db599acbbb270af82a9f8320f7c3adf113cfa86d9cfb4754c;
 0x149ba255f720eda11444f804e9814260008b187f26ce17e4152c092dd477b00e;
 0x21344c682b1f31453cafeda3081b76096340dac56062762ca80a78870dab3bec;
 0x11b6c7953ad5ab4ae16f501101b9b577f0b8a1d7c6a793d66e4fa161b1e06e52;
 0xeb1bee9bfa6eac0e22bee9a13fa2155ebfcabd0908e74145bbf9428ae0b0209;
 0xf89e6f767ef77ce6ec818807d30706fc114d9e02aa610c0f3f77a3a08aaf9c7;
 0x18a72ade9ee9765de8ccff2950b0a3e8c8abb4a336ad417ea75837e8301b8dfe;
 0x239367bf5652c2b293bf645bd88f1169b6f872ccf8405c2b4f09f4d135f6fed9;
 0x239747dfc96f5ef11b8573b4714b20381ea4ca958761b44e11872f306722792b;
 0xee7d51ee88f040e9c21d5362bfa085adbb01485abe1ed5717b55b8687e40b31;
 0x216277a3d920e1266639f61d0c22d76858e85daf5fa83d6230c6b1628a077051;
 0x43527556626973735d511d252e2a1dd3b55026e3d5b38324a50d1cd44d0f9f1;
 0x16e435ebcff7dc72244e74fef07cda6add05c08a52cf07309bd2eff2ea896b39;
 0x128020b31dce80e89ac5e01bb13329cea3c62ad115a5d65ce68555e4494a867c;
 0xc840cb172dcdbb1502749bb1beb46e0439aa167caa4317282fc78056262eb46;
 0x542b0852563c2bf928db174369c82da60d6d41e9c61425d417f009c46fac67d;
 0x22452f2d9043bcbab68e526d22af55fb835a3e554e5101a82ddbbcc047411884;
 0x11b919c0b7abc6b28c582a84c158d5d68c928475503c312f86ad3a2ca97c0ec6;
 0x2d1e6445ea67dca7ec1db0b08659adb177c9379f4569bd3efd060e06d0bd01e5;
 0x251ba02f642cd5e0ff35e008a0a309c4c6780dafa9fac55b163256d39a4e4119;
 0xd064dee824928d39f2a8be7d2fa583223c33995784d228839adde2559592592;
 0x2f09e5f58f262c5f4c9ac2458e58dc1c3f5e0a409ff3f095d8ecec957ac50f2b;
 0x1315b742c5de4460a27229e970e546750da9ae91fe8ca5e51548c60c12aa8359;
 0x60e6ecb8723e793eda04e490c818bd07cc8a972dd900d0cbdc4c28c9e3ac13;
 0x1677aa582feef6ec348f1b194f4f978d6af473133203d0d22a81b08bdcf26a9;
 0x106e8e67c7213d1c649b08f8163f849d0e0cb36391672b3dc5e632983451f457;
 0x218baabcf27c9046b7ce52309a3d6d3a2ca1b3924bd2fb64c157353a88567c8e;
 0x2b2717d36fdfce6e134f255adafaab3d1a9f719b3a661cc1fe490b1e190f2b10;
 0xb0b2c3bac72604b4c5d568e4f4cf53596050af1e7bac3627e9b2cce934eb482;
 0x217a15b51fce1bdfb5678864acc464e95225e47ea40bbc78155c14a41f2be20b;
 0x1ba5231ae9c793948686f7dd7be9c44435dd6a981b3e880f344e2935e14b64b8;
 0x253e39215ddc07e604684a22eb2e7bff9c138b17d2089ba9f451cee209f14177;
 0x291dfe1da2b968d3837a2b2b94f8eea9606535776a260664e8227e212354ca64;
 0x1d3a7e1e04c422de9b7e0b090180518372473ae8ecd8d1fb81f4981bba63122d;
 0x217d25ca6a61a6551abe4bde579165d171513a7c15fdd69e62b46269a1cefb04;
 0x1d65f0b99037a8506c7ac7811c3b8ddfec719fd951a7337dd01e22c6e00f4d34;
 0x2288e24daba6872e61c70d8a4b8dbc67c63a495d41649761198efd7e4275882c;
 0x29811fb1aa54a2592816797a866eb8126f4b333f1526eb6e25bb626224493360;
 0x2d8f4b4f41d9abbc9f03c50e4da5e64fdfe87c5d07545cefcd30131f20f00d9;
 0x28d7a552fa2a86a8dbe41059439b0e35614cfdd841e0d6ef1db1af78d7108e4f;
 0x96cddca2ab8c7ae201908ba1a671a9117e24ba7bbc16b331babdea12bcad5c7;
 0x23e387be7e8d63cd8b769e13b718b560bca4a602c8992be3d75e71747a10dcfc;
 0x1f77dc7b1dd84dd7ec1069c065121f51c036a41237408070c45ff15d2462a60;
 0x7765f1e2b28bac34ff4c1574654563e8f672a14fb105676a57f2554f49da9c;
 0xe1356ea8e8068b1ef8287fe1362ced74d7e1ec18a1bb36e6fd2f22593b51e9c;
 0xd064dee824928d39f2a8be7d2fa583223c33995784d228839adde2559592592;
 0x9d1f2588934f14551f899de997bdbfc9192ea76d1490b6bd5e1d691d3403af8;
 0x1d48285a000b66b39acca3bd48ae38d761b590d846ebec486db4899d1d3c4d72;
 0xbc56781b0480256d3661ac6e0898a7084005d607165224d494103866e256c47;
 0x88867a8bfef1eb88b2ebd34daf3524cdc118d232bd1b91646c11a2a54556b06;
 0x29938e679bf6bec4d293fee8615186bb09287291d69bd50953790fb09db7ff36;
 0xf3078e2dba998b8202b3eb91f500e8cdf87e2ac9f86edccd8b907b1d73f10d5;
 0x2feca0ea4cab180c357b1dcef1e8816caa115f572fb2da374e27b2f7d2a17108;
 0x19a53e4e1a8aa7a15029ff45f528f42c8dd0360c8dacfc125ce7d192a0a70765;
 0x18ac83f6bde2bd90432ee9fc03f0e62871969e8ba27aa1dee2c72e2fb42e9351;
 0x2cf369a36a64a81b17c4521b17c8ef65d09442ac2858d03785fff1f8ae4e3881;
 0x16d6acb3b445a2dd2ce6c6bb79f1f61f15019a090285fca38fbe54e04704c55c;
 0x1bfa4fdd27298d16aa06bdc9ddb3c29f48aff4fef45b5ce80b4acdfa43fa1355;
 0xc6d30e4b903bdb97453a996931ed19b556b3887f54d63084263d278bc2de531;
 0x173ca2118a8b85e6e3667d2dcc1c480e163a338cc2d47992b0e6f09f2d363c24;
 0xaa825097578d91eacb40da93cb739f9a435c8a9bfe2ef8f63d4d392672506f1;
 0x2869d724819d09fb172258ab1fddded25d8f0afb23f1a87b331d229eb61e032d;
 0xfa3dc0a38fbb92e5f714183536dd2cec7163726a64117973fd1d927ab7b0c42;
 0x1f0f50f138ddd25e9c77dfa15f2201bc43fe818595195782fdce833664fdd244;
 0x1a8bd852a6a8a26b23057e5bb85facaf706a6487a0651c7c226d0cdff09f4507;
 0x20d045353b22be410aad1286b4a362f79c73f96103392c5c4ed31889729807d7;
 0x2830a23a528b1c1e7e277f97424cbb153b3d316fe1b167ea01309bdfa6a0f623;
 0x1f8f3d87ef4767679cbf773af4a2f27614124d5270015c7d64c0b13d25ee63b;
 0x2843847fdedc907101ab1b8915d7151dcbc7e27419d2cc24490d2020f3193683;
 0x1fd3dcb19e924d226e9b428d29f70978d7715bcbda1ec70e5984a67ae61537f0;
 0xd064dee824928d39f2a8be7d2fa583223c33995784d228839adde2559592592;
 0x22afc2a215e589f41511280dcd9a4d2f7714e205f2c4d0b663c9d2da07a231d8;
 0x256117a01b4903a52e27a41f92d7a65de53876e832d5d0013fbbfdececdcb17e;
 0x1bd505fe2027ac17a51db28bca97087a4336103a375f5d726c4957c63c1377b2;
 0x1370beeb7c62a69367b6d83f639e5eb0744df8b7197e44410965c697938a9e3e;
 0x1b23ee8b148269858c2f44c34f1058f44e4f066b2b97a357f81a0694bbf3baa2;
 0xc11837fa154861251a3c6d09c4590cf5b738abb440c9f221b6fdd86b62b950f;
 0x1e41b6d8be08383c6279628ffab3e3329bd391e954f5333c2c24bea41b1b6107;
 0x7921a5cebe4c7e339b84f0e635a48591367584d0c12a64b5637d960f35b3d11;
 0x14969d5919a6d85c58ba30919c0f0e52cde9197db39681160c5be3b98aabb92f;
 0x1d6e48aabeb209860512a8935eaf23b1bafea8797a6a81284fbfe6e81c1f7a34;
 0x2e3ce888f840d34ed8c660bfd5a48b4f4a0c040f5b39165e2615427831f86803;
 0x3383db94e9d7ac3e3abfe0d27482c9ba837264a10f482ae80f226e51042cc26;
 0xaf89e9e5eee9173993784fb566e6d538efe46346ff5cf61b1c993b52a42e46a;
 0x1ef03efbffd92cd2da93741eef43a8bed80a76f4f68cebb61493e971b8b7e7e8;
 0x274067b2a04222952d6577de3245f38219ae54f0582d9e05b7d8a01330395345;
 0x16ba37bbec0a43c8f30d001bbecb30bc3cf3db728da538ceee4ef9ff4ba486a9;
 0xce229b9c289b8e7cbc4e020a0372a370a7f282201b47781caff3d01642b8c2a;
 0x2f80729c7338be1c0dd613c22e836ee2e9a9d0b06a2fb5e52af024ba8678b5e3;
 0x1cdc6d2ae50c1329a117d13ebbfc1fe86d5526a9f9c59a50e031f37b6710dc4f;
 0x2530a467ba204bca45d83f9ca4c5ac9a568c053266ee1126607ac33c7e94650d;
 0x371303ff0fc68a7c62e17b71ff98bd5715c6717d794b69df439a6d7c00011d2;
 0x378305e20bbf96aa0c633930f4011bc20789b5c1be3f2929d693e704c552bf4;
 0x1a3636567c1ef3005e7d5839bca900888aa34197fbae582cf6826f855020d24;
 0x281e2a06fed1cf5b0e0b6e03fa2652cd608fa474299b5c7d0e59c6aa35c0b17c;
 0xd064dee824928d39f2a8be7d2fa583223c33995784d228839adde2559592592;
 0x2b3d84e5c61b2b97939674b7ef13780988f0c2da109e71d17d0598f080236a27;
 0x29e2b9bdc8dcba3617e5663dedd89fdac40bc1714f767f327c6503d7f146fa2a;
 0x216f7ae6ccd7bac97e2bb068168cf18b23505999ad5916e52ce95a23894806e3;
 0xe8d298cae881515ab0f74ec935567a5b249314023b3856d5f9ec1a5599a9b55;
 0xf1e1e45f847cb03591997bc8812b0f422dd0db2fc99c2417a81989f2e46;
 0x5132e56caac6351c00de73247be0cf09de357c4780bf705fb1d12954047a302;
 0x2c1f7dceb1501489cd4782c13dce297dfe75af4b4065dfd0fd51191e0f03489a;
 0xdd3f24843220bcd4a66586631e888956a0ed26f717c556dc5e20f38b455d4e0;
 0x2f3224043392306423d22f0e9e5c15889df84a9c1c6e2bd406a469139d132844;
 0x2b572f7e5208c5e52a759e04500a1c7d641ff06df5984a926dcab2e17ca28503;
 0xb1988858934c8a353456d44c461a763b6c98ed3cbf72a21e2e4690083399907;
 0xb0ce76163a25f724929f8ffe5592bf64313660ebe1b160472466bc091c5c3de;
 0x173b128e873c2dd53e94e438b4cd066ecfa28eb42d13bedee742efd4ebe4dc3d;
 0x22f7d627420794cb514df36097c3dd8d2e92e2890af2c1afd4b5f5bc26a6629;
 0x1f343201df3060d03e313eba7690883ba77fdec3d663fc6884ebd401938af261;
 0x2472c968883b169ab912d4327cef96e6d4fb7b2c00959bde150b5ed9708929e9;
 0x134c248a14ff13c4202f997bb87ee93058de60144cf2f5141236f01455438526;
 0x206b6361e6139253e6070f905d6b7d08eac74e4ef2f54ce09643926bf5c8e814;
 0x2db2cff5528de7a26e0643b161e7b318e554aaab93fa72f9f475d9aa7c6ec8bf;
 0x25e05b8a3965fe0a250aa7ca030e3a7439445478e59dccab16a621928d014571;
 0x2a8c5a77c61420b6b4ebe974da7140a25eaf9dbc9092f063111283e773adfd1d;
 0x13389b7bf63bef6a68983125b86f93b62b6d9e4783f96b710e2ebed3adbcbe2d;
 0x2731cadff040622fccb533fd62a0d43090455881080a898488d55c89083395db;
 0x1886f751efed6e401c5851f88bc285e68de3b94062bc810b092c3e4160b0e12c;
 0xd064dee824928d39f2a8be7d2fa583223c33995784d228839adde2559592592;
 0x1a1de7217c640816ca96d69dfa3a9ead0a32f62b2d864c5cf3d66e2977616a60;
 0x21bfb88e0d52b7dce5432f55c443964e46e72879baaba7aaa04577b59fbbf100;
 0x1e1c9ba5f1413166786c96401b61f687ba50dc735d815a4e811570bdd8954a11;
 0x378dd10a31675f7bcdb8018c96cc8da6d034a42cdb62b406c5bc00900a3377c;
 0x274d6dc05dd550d77fb31d349b2adb5f38eb4b27ec15e8f9cfaf56fe2f8b318b;
 0x24fe1bc328cc95e0857e89e99d2ca97f327c21aa4de5c111a72c2c37235e7d1c;
 0x2a98fa37a16d2f8369b3ce72873960006ea67075c023fed5b32dfe407e636057;
 0x1097f947557042baf445bdf5b8a92021976c14cd0354ee88e43e8c8c5caec4ab;
 0x7734a2111d925edc13496d0f5922ab36acba8467999f5fb727ebfeb37a38077;
 0x2fca881eadd43cd4b9b3bde9046f6a2505bc46132b2c24da4e27c102d63eef34;
 0x27c952411017987d666bec758d6036c17e440940b77db47b40d539ee1156c1a2;
 0x1b329d612f773e77721b7a0f9154b359c24a6ff2ee0f5b9733a78a798caf0f28;
 0x2e165793b072eaa3576cd18b9027582368581339ba3dc1acba9cd4a202701686;
 0x218665404266df9d5ba6ba1f5a7d9a628ad7c74a092860e287be14f0bf58774e;
 0xf42176ddc2c84d12bb3798fb2b3a06e44a4c33ac39ebe036c7d6ac6ffdaae80;
 0x21dd47b40fc1e454614ab099787fe65d6d8ea9eb0e4055bb51e34c51bebc1dcb;
 0x7d3a26830f8b14342a63c1ab7f713db81ad94ee6e5c519cbba0bf6d2b87b265;
 0x13a106fb1b648c8490a71e9c16886e0049270240189d44278c63a46f744edbaa;
 0x1caa59825f86da2ce09134f4ad823df1faec3d556f9756312cdd8991c3b56d60;
 0x15cdad7e7f40503431e7a8c20a7e1b48ace6d194ee7d7829805a38d04020426f;
 0x35c2a4fc2c424ff77ca180b9b522abf519f1fd8b5bb7ef7f1f8fc7d31c117c4;
 0xae2ec57575aeeb3814613d2390f8ea28130ed34725d1605b585b4e8cbbfb4b9;
 0x1ded456ffe562fc6df999ea5cc80de0ff6ca5fff1b0fb2607273ef1ba5262edb;
 0x2ae307a4f4670d11f5ac1c7a3a23b6dac613d3f104e107d0438e2ca6d0ed55f5;
 0xd064dee824928d39f2a8be7d2fa583223c33995784d228839adde2559592592;
 0x17570a15226e3cb10d0e0cf627fee157af900cf4b22d8bebfa0f05ab45d56306;
 0xec2cba7becd9f7b3b07b59be1f747b3fe3f40ff31873dd306105ffdfba14106;
 0x115a73bfcecc700e34ebe87a02338ec4c9e1bd0d95c2554b12cd5cafa1f75f87;
 0x271882e1e88d3a90e536ac91109d8940ae411f75de7cbd43000d6316c5ef48ab;
 0x28d797cb88e36cce87e39090fedfa11dfacdf2adf148618d262e46fda6ecd899;
 0x903165475cdefc056bf3cea7cf26e39e87e7d1c8e1497271df24330ad02d8fb;
 0x521dc03abcf3c15278e90552e8162b2dac92220d99e69ef9e449b5a0370afb0;
 0x1f80e4baee043beb212593df11501a79c07c898df6cc578190c679e64c34a2ed;
 0x1133a6e8c5d0315d2775206b849588eaabb0b63a8faddc67806ac13faf127b7;
 0x22af22b064becadae113b24d113f0cc3dd0d178f9cc56d78e84bf341354918ab;
 0x16f91f204c2bd84fb907a7ab7442742ff24ab831ba252806ca7b6e69c77ce94d;
 0x1d2c02fb8f7780faa24f3da1f29e9101c1cde4461b7d567b949bff5ce1c71ee2;
 0xf8e78d6c9a055af147b74439decce135691562dc5b8bac4e471fecb73562363;
 0x134cd1d2c86faa3bff3a72cb6226109880094173ee2cc808abe6f9586bd47844;
 0x1b9edce59f36f20f7acff0cd78bdf614f6a8f1bcf95ae9d6ddbf5c8c7fcf625f;
 0x5a6771daf1f2b83d0a92a118f30d42178846e5e209b82491656febef65abf3;
 0x1508cef9d99fd03d1b6479b90399ca9dfe3792fc63bfbdd35661e0d44bad8096;
 0x291cc5c3f65ae5bf17598f432aef5de08724ab30026f25adb70f85fb3bb0d455;
 0x2c7723a807b3944705b71db8c04cc468820d3bfb99706528f66965bb8c9734d4;
 0x9bb171d7c99e8b5b35def3624957074dc2f0a6beb861bdf417b2ae290832dc0;
 0x1943ca5707ee772b8391b577e295dad4f10c2db1c770e33d8c37fc2280d71ae8;
 0x1d7852588ccf0c51663abd65b87004ad5880721019214e00190cc8e939eb22d0;
 0xee871118f882a42a8acbe733a64b7333a2d14413c511b6a79d58aa96c08ef8c;
 0x1ae19930e083754140dd85378ca87078feea1703c3c0404e2776bbfb4cdba8d4;
 0xd064dee824928d39f2a8be7d2fa583223c33995784d228839adde2559592592;
 0xa7c934a0347f0de7e9e7dda8b1ae9b094bd6a309b8323e06780821d7894fb5e;
 0xfcfbe728f5c1f06572e5a750260efe423bb6992a7b1bf8f0e761e7277e71d30;
 0x170dca9f0f6e9057372e380cfa924e65cb86afad866a330ec9ed35ebdae1973d;
 0xa4a917f344bce3b5f92568450a4f17e6a17e251c7357e708ec3d6e559bd89bb;
 0x127ff432555f7e08beafe0fedba0ea990b49ca5df42cbb999c3bd7b911195362;
 0x65b6e437cbc026c1623071777b10b8dfd605a3598fbda0687c74eaf525dc1b8;
 0x2faee8e6ee2f7bdd25ff36c3189aedc3b05c4bdaffde640c0e4d9284f7d9a8a5;
 0x1294fbb432ac3864a9c12eabef13d07f732b652836e66a954c485735899241d8;
 0x2dd3ab4f03573f3362bb7ddf9648bad1b43ac6939d6c4fa9ee73dc7fe66deee3;
 0x2029b79d88ff15c860971aeefb2ebe0d523faafdd6096642b018856793e74b4c;
 0x2e5c56ab0934eec6ff8c8224ffeea657f1b99f880a002f6ad5352d30f7c0b85b;
 0x24888adee436dd67b6742858809073a5c4393d61283a825b65b883114d44220e;
 0x1fb80c654292d64f24d331f4f6fac1a20a76379865a6331e7528de236f44eb11;
 0x3e8ff048f23e53a5c6ef02dc7d37f316cd4528da4e1f6cbc4582889e1470039;
 0x23a4cda868726fac1665985e13d800d100b56bace43f67e29da05733c2a351f8;
 0xe25a1b132ba0bf76f1e361bff6b9bb9fa2d3aaad114f589e100625225a04b9e;
 0xf534c5ad59c9d1c4a37bda4e52ade866d305b982309a004f3b2c6f8b10e9854;
 0x1269fd5d157f5bb62bfdbf4f3f88c1b2b684e40ce07749cfce657a373e1e4b91;
 0x1fb70d1ec4776f91b42677c88d2983442b78ef00e03b82b5de606a45ffd3b4e6;
 0x29eecc22d8e5725e00c85a0651edaf5f3e9530505cae2d7a3eff6ef496d7b1d2;
 0x2355c9e8fd9fe0eb681e8aa1e3ad43740a79cc9d930a029fd161c3ee32f7257e;
 0x390f12f658c6d9291b118f5e116727e2f4a07140e8f3563ec5b12a0ff6f6a7a;
 0x140256a4a9cc33d93eb486b96b737dbd17580a77f20924e4a3d87c23b25b233a;
 0x2d2be9983d14c81d2cb8665b0c08f89d6140539c712cf4c2ac8cc75b2daffe46;
 0xd064dee824928d39f2a8be7d2fa583223c33995784d228839adde2559592592;
 0x2cdce0a94aa8c1acc2db79358c3e67d954983ef0927dc6b26f9abad820f1d420;
 0xf49eb6531ab1674ea9a6ff88bd8148690c04addf9a9164b13ff2c4cf008443;
 0x26403014e3cc48e1cf112ed79bee8ee1467acd303d0da5c88b8683e38bcb7205;
 0xc5f602b9f3fda8e647ef7a42af34741d11abbe0a99f464c101e534b51cdea4f;
 0x18ac38aa55e95efef98c347335a80caf7fc5c3efc95901321e3b13b12cf46a2d;
 0x2b1960c727b10b666328f0c37f5cbb3b06a1ad54f61b9503f23b02e5c4678519;
 0x16f13b53b3c6a47f01c73f7e26c2fe6ab61b3e1f5e553413f2ca127e53ce4879;
 0xfc4ef669021d86d29dc04139b88f55a5a57fe0bfa253631918e0d808b1236c7;
 0x8834ddf96f673a786dc5af125eb83c9ffe1537fc773c21d101768aac7ada57a;
 0x233f13c0ce9b48867dedb88a15b1461cd1befdeb99a9c0acd863dd45e0672508;
 0x2099a619097f9565ca65ac96aff19cbea16a90e056a33b9b49dcbb725903edeb;
 0x269898a890a0eb11e9b84db6ae0735714123d4f0aa0a30db183134d279f1a90d;
 0x27fb03bad7fa46a625fb06a4799bf7a07ce3bf8dc01860cf6174f5d9cd49522e;
 0x1f0a5bd99fd979d0edddd243d6966152706bffc8326fb088545b38d95fda103e;
 0x1b082065bfb2e151552d1aeb3f2435ae8c522db79c1c3fb847fe73b728dea05a;
 0x196840a15a65ee462a8312520b868084ed0213c1a881adf907ebff992226833a;
 0x1bb7d7bc4ea0f7b8fb5a3b059478ce7f5ce2069e7d62a307c21d0400f386049c;
 0x2c0b3d687226a36e523c0677e0f3949eaa45d0d3b9c9c2d11b0431d8ecc7410d;
 0x2a22096acae1d75aedd8fc843d8130cc869b142405d3967781ecf9ff0062cfa9;
 0x11d3df41e1d31751c5b00b775f33925b4fd5f8f66dd2c5b2e2e04cb090ffb97b;
 0x29d0fc08ded332bba4a34cedcb8e3eca9d9a6929a5efbf58a72e849856a9cc67;
 0x1a0ae664c389dbc11046bb170c0ddb422c4c6c2f10c68ee98ae7ac8c00c4ee83;
 0x6f3c77706973637c7f2d5b9bd92d6e2424b926c38a2cca7bca5dfa0794e5845;
 0x56965616b2df66e2918ba840e0809b85a567a3e7d13ac5f1e532061af856a57;
 0xd064dee824928d39f2a8be7d2fa583223c33995784d228839adde2559592592;
 0x2dfcf11eef61a008f27f61a5de96abc2e329dced7092f941def6b523960afc93;
 0x4f73f5afb82d2297d4e51498f0828eeb3eddc016ae0e15a2a9e3cfff340d500;
 0x26290fc492220c99dd821c4a4d1acfe1b7f40b37a13bbd3ab51405a9f958ac93;
 0x7b53809466ff55e2e4f5ad0f029ccc5a1ac5d261732ab2b010037e8ad080317;
 0x80ca5188ef7378b939057774b2ecd1f98abf27dcd473edebccc06ac7a942e26;
 0x2b6b01434a47ed188b43157e1964f3725cf4f8113fb0a6cb4c01ec7dc2bd47e3;
 0x2c2106b5cb401bd68e15746349b56238f670e58a021ee2ac8915288d5361475d;
 0x88ee10bba489475547984b890d7e794ab25535f1fcc8fae04a33d300a5eb6c3;
 0x29108e4588512ad0ab28e432c789fa3d3e0dc0d6002e19cc3fb6795a75d6971b;
 0x241c4817a914814ced21c06ec5351e85ed7a90f2843d23bd5363aebbcedde7b9;
 0x22ecde699dc8dbd7cd3d81e80d9a81ad023c57bf3aec5a8239871472fabc551a;
 0x20dccbfe3e84b40f3908bf43f0512048facdd8686ca5f17192f983599daac6ed;
 0x2c96389333c5459ec65960d848b06bad4d6b8abc6f2602bfd81824cf43c7218a;
 0x28c59dfea6fcab6ae73beba612e62083a58bb80306a3bc2746ace09d650c83e6;
 0xdd478a62c6871c699ecb4ea12e454027212fd8f1e03a8efc005df6d20ecdd40;
 0x28772e7be45e36b90c2d439748c0d77c0b523711ea398e7dbd85b0d7df1300d5;
 0x2a37740039be074389e76e1ef0095d7d111f778072d4a57334ebca290d667a4a;
 0x2f37845d94aec2d63ddcf2cbd3fb56fead92ea8ecd819d7eac3c2b036c6c2cef;
 0x15edccc5a7e695dff4db9dacf405612f00ba80a16dfda1b55cf4beeedf90ddbf;
 0x2817134845b5ec6aeda4961644d513269f86e07a21ac3b7344d582ed07b5f46a;
 0x1ef5390790a2a3214140b10962d9435bfb0b4e6ce24b7a1ea0c9af689234b6bc;
 0x18427d6f7cd9bf7ace6341d16dd845cd1bd18ed4b9b8ecdcab36fa45860855d0;
 0x9de33bc7e2ef786db74db7eecc7ff8720454637bdf51b281a4a1478f198bae;
 0x5d2c63aa2de4534fa4df7a6c5f6d10599412fd247a59f778366bff5706110fa;
 0xd064dee824928d39f2a8be7d2fa583223c33995784d228839adde2559592592;
 0x23aba695154e684ff482751cb761dcc1637ec5e99aaea18d0bf2e2fb26eb142;
 0xba208c04ac11ef4543112dbd88212917dbaab5a87268d8158a487ae3241584e;
 0x1cfed0b58000d3ef4cac1e6fe54e64af54f393accaca4d5b8cb05f61ad9cd776;
 0xba1df4ea027f8349fcb15d1edb328a76fb536ab65ebd535787945634d09c5ae;
 0x1e136b44ef141c91945c8768805ce01001958ecdac9b065874d21717da99b408;
 0x20643e3f3c68b214605c6df2d802e1e539b465b98307fcdd0f8d5bfa1778db69;
 0x2127d0e7d940b3132fab6b1cd719577f51bf8db531e37edad5194875ee74936c;
 0x17249cdabe9c9db4a1b88bd5636d3bdb48eb0ba6a17357452c97f695b080d5f9;
 0xa6b94822882ba1ca1da954566ad30322e3458a6e0ddb143e4f5f306fc9e3336;
 0x2486410df8f9b4817d82adfbd24aae41ebf7c4bbd8708d3a7c3b18a999cf79bb;
 0xc0b7684e8ae46845e7766bf7620d2791a3d218bfd812d008f73ad351ba86aae;
 0x97d3ee321f0db8c04cede13ecfa87cca6ffc215653dbcdbf62825059b8521e3;
 0x2bff71dafae458bf4854d7957865e2362b99a7891cdd38e17f76c5828aa16531;
 0xfe15f8b13351058806bcaf16fdb68f3ccdf3c30f15a85a58df2dcfad72e296a;
 0x2bd586480aa18c155f688c75ba812ff81990930c1aafa4058ebaf667d41e53ca;
 0x2b91cb72fc45f6dcb1dabf0473e2455f28be6eb1b59cff91b5fef3b81d628ee9;
 0xcdacb5ed20f18668a7c3f21366e04150d0e877756e2ee1cee11921184a31a71;
 0x9239d69b632ebcc1f559752a2fab086bd46cee120504a8c94b4427a2fecd5b8;
 0x12bcdb6b20dc77d3d5741b3fc61e1ec6f53137b01a23f48c2a267d6fd59ca0c2;
 0x11ea73b3f04690ce2ddefc2af3bf8f8054ba74dc313b09ec09c96fa29e865b0d;
 0xdda6467c64b0249d2f065df90fbc7a685022ace6d9cc6d9c983dbd7d29eab53;
 0x15d7c61e8a8308e4a43d992947c0262b65bad163a8f101423dee64c22bc3ab02;
 0xa825acf9f09d653e06be5dba7ca63648ebd6060377101080daf3de7bd9d5380;
 0x2dfbdf5d427e2fe6892fd40d4e97ed7808dd823ead27629d894982b7aba08a66;
 0xd064dee824928d39f2a8be7d2fa583223c33995784d228839adde2559592592;
 0x1c9ea68943d8c846364060646de0e33534d528a23ad82b8ba6870754281db559;
 0xa15008aecf43fe4b9a3bdc26ff03e3867e974352926cb3ad1535f7459648a98;
 0xab17a8ff84f7fa5d0daac95c36e606fc6e133e7cb04f0f7b5334e8e6c44ea88;
 0x1495d888378f7e12c016cab0bee2534903fe878d5650aeeafb3814b3a8b1ccbc;
 0x29a054aa447d63b2124f50ddbc4c2d943636ed53f22651aaf90fd93dcedfc941;
 0x395b15a827e37a6adf3175a2691c288aca68e16154c2d98d96bb0dbee6a3f47;
 0x2f47066bab9349dfa62b25ecb43354246a47eca6216c1d12c36601fe3413ea6b;
 0x1b1ad81eede52f8a8c0aff49a041dce0b55a1f06c826b441951b6d654b804012;
 0x137f27f0b79cf88476110b34e7ef630d03ea21338c200322990157f50a8f3fec;
 0x131ff85cf21b1a68336160757d135e1d605144f82b3adac0fda110084d120349;
 0x5f848d592e921b0c3c7a36a84765487b1357d0ec01f8f329aa8c6f266f4a85;
 0x2f8999412ae8dcb4475413e72f68817ec1a094272744d32be4b8a0ff74bfdf1b;
 0xb42e032237f3bf21ae95c4062868751dd39d0f68c06ddb849f691288f33e261;
 0x199c8b45cac96bb0db0f2dcbf92c361191cedff0d949606a140d3420dfad31dc;
 0xfda38b5f5bd1100dab719bcfb3889371f5ab9ce9c42868e7bbb1ce2d5a85f58;
 0x1bbfe63a7558b0e9a002b3983058c3cf399d479f7e2193d2491d585d541a086a;
 0xeb005763e3b3d55840741f0cbfc95fe55483854e817b4d7cfb4549ac79cb34a;
 0xae77d49a777e5a22a3fc6aec242a7a80f52af3e1cd395cb8862b09bf3230ece;
 0x25c1db48d2561608e3478c8238b3872dea6de1de597c4f26ed8baa958480e5b9;
 0x150bf881bbd323068ed07cea87050866e7b29818f3d36e08fcd35b31de21b85e;
 0x2e9d25423c272d1989d6ec5e983812e73575f6040b3f775fc9bd1c7817c55;
 0x229ed6f052976bcf9f11e48f4fccbfb450a7b92efcfaa532c1c85a059db33cae;
 0x3ba04ce72a78038c64773239e8f8c1da608b93fbde21c2ce94af9615ae10f44;
 0x2ea6dd6483856ca2a36102227dc147fbb29fcb62ef939915a9db66c103a99abb;
 0xd064dee824928d39f2a8be7d2fa583223c33995784d228839adde2559592592;
 0x29e75237c1ee6bb877b6e95b7355cac03170fbf57421be8dbcc50f08693db587;
 0x137b76a84a30e906a38827cc4b62b1a22e942d835192a98c514eafd9013a2dc5;
 0x1e2a3dcda8868ab407f15b612c405069a5c1c545af827bb0f8f6e32dc55e0277;
 0x5b71c5d1613cd9b6b3cfe9400cb5d8583a16dbc1142cf760ca6aa9f816e9f28;
 0xa7603ec122e8e0178a7cb29db181e2a9a71f825effc8415b8d09feb7bf6ed31;
 0x12e4a61dd3e9834662b78d9a820c25660926039237ef579fd1eb260bce13112;
 0x17c89d0343777a479dea31744f2848ac06045696d8f0017b7fa9d3abf88cb373;
 0x104a21bdcb8e49245acd6fc281bb1263976f138797f19634c79423f349d6dded;
 0x1e6ad3ab8037bed2e36c872a9757a796696ee2950f97cf31eb83bcd4f63805;
 0x248ad6966b401086060a913af010da4ea282c2d1461e3dc100569b3bd1685a16;
 0x1b4d21b426441caf2545938d41bcb3b37c32b3fa15ed8ffd1162e65242ea4d39;
 0x29c4422c99599bab17470ab9388ee796951c249645ab164e90530fc851ea1fd7;
 0x1ce500e40779238422cd47a0a6d7f3dcfdc0c6902869966211b0b6a9acf5171d;
 0x19102e3c727844fb898c083bc1ff45d106a293d8dce6ed43895782daf691a7b9;
 0x12947f4ac2f6fe4b1125a28d17cc4a3e2db92fab0e0b97728c8b7bb2047078f3;
 0x2a7639bcd6591dbafef49fb61db710e9ca0d712cbe81cb86340d0f1698103515;
 0x83ac15141e94aa73277ab521d9eba44ee30f4e02d6e9c1568172bd18c9b7e6b;
 0x480635cff8314d917d8a55b349529dc633170a143f4865713f10007f7f4b7d9;
 0x1c03ca2e6ebcce9a2f4ce66bb039d036b2b7424ae916bda6240280d5e5ed0a1f;
 0x15e7db7d25266f604b8f942efb4e0c32c1e45621336d280f1b904c3f4052936a;
 0x2215b41943b064cdbc20179c98c4a6948c8cf249f04ddd18f519e9595aa33b;
 0xba3d24e5581d6959c2bf9c0c69560f1dcb6486734dee56834898b97e8c04b7d;
 0x10de6cbb712419d84dbecd375963ae617b7496be8ca89c5cf3ece9d30f4f854a;
 0x2a4f4573863cbfb189e17e80bc465161a508dd069ee4fac346c2b024c88b5cb3;
 0xd064dee824928d39f2a8be7d2fa583223c33995784d228839adde2559592592;
 0x79c218efa2fcbe1cac587faa89bcf970134391c8edadfc9d54c666c091a6829;
 0x112316416efb7fa45be2c134395b446f048902531554fd38e0bfbb364d196924;
 0xd77ef457994c37f8a3bd0068572311673ea26b0fd473aa1ba9c25c6a627692e;
 0x189bfb671bf421730764e771fd68f01e883f98b0aeac6e5c9b623bdf1505ea70;
 0xd77f35f4ab33fd80625be829594190adface4ea623ab12520920ff8e707a591;
 0x26288f7ab16b1812ff362b7d283539b18dfd08362e2a7c4466744a8b815b0fe9;
 0x26f1bd644a7b3118e55d6beed008d72deffbde92815b8871ff8d861153eba032;
 0xeb8a1d5ae4081352c7ef3d50b0622816fea17a0fb9cb163c0e544da8a7e8ae0;
 0xdb56b6264829c99f094eef0b8c5baf36f6c9518555a9b8ce5845b4d32eb96e2;
 0x20883c599a195873758fd917f44d2079778ccb41dc128b8003cc007b6fd664ee;
 0x19f29faf9c5393cd0b7c07a902457096ee6543d1dfaf22a4f897d2ea6599860;
 0x20a2bbb3ebc1f46f939e64356d5d1609b5e50b5b3fdc7462b4faf735cff66ee6;
 0xdf989faa8055df73bc2acd9e8d9842bfdfa81140488ecf67db886d58d2a84d3;
 0x1c208f8e89b2c7fd65a95e2fcce432f5da8e71640467d21f351b169d03395c9f;
 0x1356fbcda43f79998b2833fe6eeaaf63886cf799f55505d81164c882009151d4;
 0x2e99fece2dc2aa38fc4055171969feafb838a5f2735ecba803bb9f4d18a5dae6;
 0xe39c64bd29c62c85340ab8eb5f7086e1c9bd733945179b108891f966b220874;
 0x8432d0352bce6861217bfb3bdf0a04f3ecbeeaee2d360cd5a28c5d2305911d1;
 0x103424d7f89182df35cf2d59dbc2b453542beafd78d95995a5e386aa2e55aacb;
 0x10e4ff8e36e76842ca11e222592d318986689fed7328b94cc15104c8d86e2def;
 0xa6b0020177e766bb234bec7dee733678251b1c8899c516ed2832aec23623c5a;
 0x7514523d425b76b3a7812057725c07333577023bc38d70d079eb2d524d94f87;
 0xe666408d6019b0c96d7c9dd5ab9e08a47cc988d93292535265f710873da5b08;
 0x2339395b0617cd94dd101a4d03051e9436327044ac470ed0420b6e9bd876bb5;
 0xd064dee824928d39f2a8be7d2fa583223c33995784d228839adde2559592592;
 0x823e9cf59d9e29590ea5d5caa60265f1eefb9ef497a8a653e21e6b884bf380c;
 0x25015bc12c22856eddaff514db520795225428b8b63b82d54e6ead88904e716f;
 0x147f4836af834c89e12c52da5d778726c878bc2005e78e9c0bb46ed47740bc8b;
 0x695c3ae3f6aa362df3220e3b4b230d3aea7ce4dfa4629a0b3da2cf68ab08b2;
 0x2de7695bf1b96fcc94dd6b9f46184a9843a90ccf1891093670cff21e6f9a6fe4;
 0x21326346451906a82345ff6a916bc7ffa139b3edf1ccea12b1ccaa554eee5faf;
 0x112efaadc386b3c1abd2d173beae1b5a9424fe57fbab2c2825c2e6a7e663fbf3;
 0x1a2a5c2b2990f00cb8bde45b57589cd7fd1c5e0df587d6718999a1893f0bc8c3;
 0x2087e95ae6df27098e3ebcd46f3e4feca4aec7df172d5ef293849f671322789c;
 0x254c2d79bc6811203b55ce01f1e8295095201f0f03613708366a7af5f7b9600c;
 0x10f23dd383d2ea9524e512e2c7a3b75b76acc7766a95067116493a0d1db0efd2;
 0x80154347a02980ff5274996369c7d439951efb11b19c3607010b03de802b81e;
 0x155940fc6e3236f82e7b7257f0828b1f43cad68677571d814eeab2a6986b223e;
 0xfba722c1bb656ed1c16203506d15a78c79088a9dcbad00a18e707b71f326ac7;
 0xa31c81db83a6746fb9747989509010c547d619d1823298f1f5674551479bc09;
 0x16a2ffcbe9959f75223188ee2d7bed0c4cb9ddf552c98fea86a6c01f1c7e0dd0;
 0x2e7e9b9c74526581808097354419679f2d878fe4312934613b01820d66080fe7;
 0x2df5d5cf7d48de207d7ff06b292961084478a6023f4ee1a0da7619008977d815;
 0xe1c110badcba8d0d3190b37de62dedfdc2a25675f54d4c5bd6956fa5b6c1d91;
 0x1257af1a62fb76f7a2abb3ddeb256bde2cc31596ed9a5aa2da5df05cb56b9ebb;
 0x1197774ef4175d674951e91d56afee6229e236a6112a802c20621423b0a66f3f;
 0x15787ba0abf814438a3c358e48b84cac38c4dcf66441e29b5a89bb17b6dc50af;
 0x10df04b3f297cfd58260e1933420a96f126fe4a3f9d53000e140d4f55c2217f9;
 0x26522aedb4ef7245ad2e50ababed3e320f4ec30b43f2bf1904c956cb3b9f430e;
 0xd064dee824928d39f2a8be7d2fa583223c33995784d228839adde2559592592;
 0x30084328d537eeb68e55d5593d350824f01bcc9a9d8cf28558982dde43bb8ddc;
 0x5921d17d596463a98fabd2e90e2ed92eeca8b791f75134c9aa7538ecf90e450;
 0x1349f05b3e3290ea030b6f2696ed6df35c27205e6bd904b569c363d985c81fdb;
 0x1d92c460a4cd6ffe4582a5aa95ff6a8369a804f55d0341dd94d495d538dac09a;
 0x1e27ce95b6ad61a67da6b7ff01d06998a5e66b70ad7086962f8b6f6687fbe00a;
 0x260b78052f342b0f62c4a6d75c2aec7321b71c084fd3659255713de667cc742;
 0x131e63069626670c022ddda083bfed93280ed3db252d51ad6a7ea8948ebc9a63;
 0xd89b6c7f1e046e139cd4b937b5f30e293b478845aac1e1e64cd90738dbd2fe9;
 0x13b662585b95a62cf47a3d74e971dd1a2195a9987ba5c35349b2ac299bf6daea;
 0x299cddcb1afe110299b2c4589888afdfc8b33293a4b4f7cf822a74a922f4d61d;
 0x243f933137a5377ca39a64f788a1bdd25027e4c1579908aa2329c18f13654b40;
 0x152517da46773ba3a5708a14db3239e59b4cdaf84ca55ba6b7c61e9bffb6feec;
 0x1811c08f29173c3ffd29aaeb2d9123a5e2b5bc32e5d74a23f0dc026199f9c8db;
 0x2beb86f7fc3941962809bd8c7209613eb2f403a1db90acacbd487034b4e734e0;
 0x22d40f04d25617323bf6481a7116f5c77922d4a98d867730e9717a181c24ebdb;
 0x7984c5792dff5a244e45e8d9ca13d787cf5725f45513595bbff1405f8a12f62;
 0x54f16dcf84267fdbd028fc4e88d51fa7624405920d6f85771606130c735454c;
 0x1e14b42a14dc7272d18f47c28dd8050fb3993b0c0571a12f3b3e4a4c49ef788d;
 0x125ddc89a4aeecea6d3620f026c2a9372fa856b53d8ad5d8ad495a5eec7ba24d;
 0x149d09583cb39f4124a7145923205b3bfb7121c62a39d6238cfb380c782475b2;
 0xecae7698bbf994d656a1d3b3df5668350112f80a5787730c8d32436aae6ee32;
 0xd48fbb1cd222f052942818e73b12562f7490892f474402274151763ea668369;
 0x21ff6e0e9dc2c5eeb19793fb2b3e64cc11233b81df41803b6524ae510cf0a29e;
 0xdee76eef76340680e4f3d4a0c51b87a162db5254e981a7684756e55d8b513a2;
 0xd064dee824928d39f2a8be7d2fa583223c33995784d228839adde2559592592;
 0x1c72c610ee727a6dd1e885a0607d35cca9127f006e26ce1f986bad89bc3bf3b1;
 0x1d8bff20f53a1b7fbd3ed4f015ca18fa484cc6fe4fda3821016d43a62db85681;
 0x1c13c5149e5fabedd52729f4e4502a7d0d5058c532728db8377aa92f1c3e70e8;
 0xa2044c5c41c0e874f005528327e695ada2337dc81c9257b6663ad1e37416a31;
 0x27a159845c8347dce715b4de7d305d529b7c9bea09d3fb1615b69d5d0e2e9991;
 0x28a37316b111822f43ce287c632cdcde70bd0a094fbb0ded49467acf199cd86;
 0x69b007be4fffd6c1611b22a1f73aba8d334eb39e36488f6dcaf8f61b07cc842;
 0x159cfe01b040d2ed27293355e3ddc2727906018eab4f0be23a0fbf924d74bd12;
 0xb538e8f3455ff2d7f95203ec7c7d12262d7d25b224a92500923726f20f4dffc;
 0x1f188392740ecb474a4a589a3b83deecab0c1c583c390ae1e3654bc90d0705dd;
 0x85e8ab77fc680dbfddd3a41d1f749a5b25f207a10fbb591b2b2b70705d88911;
 0x18038e5ab85927a21df17e8a5db6e3e62242f7bdf6e662a2f973a794d132ecb7;
 0x25975674afcc9637d27a23b97bbd8b82874bee41e7b84057be13951531fa9fc2;
 0x2ff9d4e295691f9979acf589c59991f2f8917c6358b76e61a1b53e1184dd3611;
 0xff8d053d841882947fb4d33026c489c53b410dbb7afd04a3461f2c6b46869f;
 0x1c6d41952c53460b094bb1d727059e7ef08feb073f1d844845d53b9640a09f64;
 0x291c286327312c533d3e244d73732e212202e546807d2b5d7582e7bbdd28b10f;
 0x2c29cc08dd040a2ccf3c5ceb34882c68f0c773d055766b389051276b2dcdafd6;
 0xb51d6531aef720d40d878bdfb54a8dc43686066cf85e6eb5188c094b173930a;
 0x2eff7e9766928007d29d2555f466ae211166ddc034d13531728246b23850edb9;
 0x1c856f1e898cd9241df7e1bdb20857061acb1d825ce2b9c05c785be35a5066c;
 0xa88dec27698d5f11c3e2619b75601bb5f8bed6c59defa4270341b8048cadba9;
 0x171ca4dba69a7f21c315e9ec1d4324f8a365828508d62c205a0c8ab55322458e;
 0x2192264db77dda74e05a8c7389bf314447eccfea329054f694fad2ac11a8997f;
 0xd064dee824928d39f2a8be7d2fa583223c33995784d228839adde2559592592;
 0x2f9db1272bf8daf7461f68a046226bf5eb50de5222634ff09f06cd08c8d90647;
 0x2dcf0a905f69dcc006ecf519557f50b60cec57e406fbe85ce719240ac8ad4d96;
 0x1ef1e8e3bcabdd9c59f5c8bbe9c8eb2fee860feb4aca30cb0339394dd9aa845c;
 0x1f11157aed6e03678558e187e731f4e6c70b98fc36b5337562c565680e64bc04;
 0xa38ce884c10d28d82a3b6316f30c7fc833f4e1204c984b7c20098a13a0d5a2;
 0x1db78e384fc722f1290a337231d3c8986448b867adde280ef5eb72c45fbbde08;
 0x1e815a5b2ff405454bffb88b3d8ae428682375fdd858d9fc2fee3f76cd3a6d4c;
 0x370b02885c192b687c2cbb330888c9f4b3f26a6c054f70b092acf96d93f7c90;
 0x8203f9ff8db7576e14876f45be708f58f48e5f951be08bbdb4e9cfb23c244b9;
 0x29dc1ae19a1f06c6d67ad121f185ece6d0751d0ac335a9b7c879bab33dfb0e84;
 0xd3c1af0faea85e54e7da575cff80e5c027cf3876da141377410a28026ad4619;
 0x29609aac1d88be4d5aff5dc808e01361309a1a6c8c0defde126fb554c79944e2;
 0x2da5231bb84b05c467f6fe2b9b3e3bda77854f6de32ceb380fe0309c3c8c5d50;
 0x24658abc45d1109f9cb4ef1cfcea11de3ab442f13e710d10c0bb6bebe5b012ee;
 0x1f38ead2636865f16a72e393dddc1622ffc5417e5194d6c15ad8bfbd0073946d;
 0xde6a95902d88df02192471691daa4ac55617b73f448a4611f3d89172831542a;
 0x1cb8cad4994c3af3a2ae4584827640cd9dd5012fe4b55136bdf53357b4c168bf;
 0xc4b166f5e4c3ebd2ce9c84e88b3d42cfaee7aad923d9807b04a2bde61151b1b;
 0xa125c564bd818b114e3af44a87e694061155e19cbc84c50e0d29656de2a03d9;
 0x18cd16fb943e369664b89db857f6787b1d82a17b3940f15add4047f8bdf4dee1;
 0x22100b866fb7d36e656990a2c832bd09d7d0036ffc7d2693b22fcf5c26b05735;
 0x2228191716f3aed9191659eeda5fe346b80af580b666159ff25456172562c5e5;
 0x2dca6c96c30284bb8f7cf3467103d39f922aeddb431bfa3b62a7bc1f61fd9baf;
 0xa242a4882954de8d3d1e8cf0984236cd4665abdbb4d980c625c1d470349380f;
 0xd064dee824928d39f2a8be7d2fa583223c33995784d228839adde2559592592;
 0x116c85a250d461dd5bf2249536e50de23ab8e0287f5cbc62363c54c690c6d716;
 0x750eaaf76a03769c97c684d448ac7ae2ad93950a75c24f3482340bd29f566fc;
 0xde057ca401a6fa8a17d35a643f71515678944f33d6253778d116b55b7599cfb;
 0xc944093f1183d2fd822cf70dc124a07ac9397f3a941a50d0c35da8df5e35180;
 0x19376e5bb4d2266f833d7fae60c8c5f2f484b203f008003038515c66e2677233;
 0x169bcc309d7b6f8c73594d7563262ecd332ed38cb317d2c43f6f8dd704d32178;
 0x304811527f616bc8ef59c55565337f63a42094023b3abf89ae99193034cbc9c9;
 0x24bfb86617225eddd82f86320315dc68e8a7fad755ec408012968449dbe1ceb3;
 0x242f4b3a3535d5307261e9a75c570e6c06174ccdf398c934958ca129e7bde3a2;
 0x2b2f283271455095d3c2012a1f4fda54ba8f365cdbe014328e0753d94824f643;
 0x35a852e7bf5cf60b00f15be184e707d345fa227d8e44e1f4c37050d79a53a1d;
 0x150f777da222071015c6c4e025f67bc356fdfd678d9840dd2c93ba1a43f98ef6;
 0x2d8c70035731ad9efba92821a88119f6b8183a362be641729a93d6a327c03809;
 0x7b620c8a78e09e49ce547aa783aa78f3e4594c49ab3dd6f602bc6c0351d823f;
 0x231996b592528575567d39d00645a83b13929093bbfa00d6a661e4a690351d0f;
 0x4e47a72e49b9c5aa3f69f6af22fa0ab640c93fc524dd3c508486d66f079852a;
 0xa8cb4b2bf3f0c5da671e48f83e5c1b3018f0d31200a6f19fd5195db22eef7f4;
 0x18bbb002b46f2e5fec2b120faf87822ca8e77ace94e03aab5c16c4b931739dc8;
 0x2bfae1b054ef2e924d75a8a01283da29103c57bad129ec8396ce274ba4524df;
 0x6d101b19477d1627b9542581bf0cdfab38b05cdefdcb81965c5be00d780f192;
 0x18af61f6184ff85f104c2bef179b3ec5a5d242dfbebe8e27a2918f620e8a5be8;
 0x11e3a7c2d5f74371beb188c6e3d7a14b33128af8ee3287546d12d7777cef70cb;
 0x2de5d6a7a27343dd0422ac71b8d409b43ccb0b672e978f8fdfd214f4d7866404;
 0x227cb43b9818924f2a2588964a0ad7ddfa3df62284b4b3b10199a501ed970622].
(* poseidon_bn128_constants.rs:6326-7417 *)
Definition bn_c14 : list Z := [0x304c29aeb6f1873847879576d30f1f6e8a3ce41082c15c7632df920d6db5164d;
 0x2b7380d8b25bca649b3f8bbd0a86ae417109069be27066f46fdd1c7c87d4c40c;
 0x4c77200e5494b1cb8a3d334f69ae5bafa7e8775ba1924e563efe591eff302f7;
 0x6c0b8966df93080c3ac1576486e61ab0d027637aac41bb35e482bfa10e34fc5;
 0x24c73f425903904f40dbff590225f251ce1980a5a5ce2d07ae436e1d090778d7;
 0x23df6f6f4448273c745ce53d5d7abb5d26c46724a58d68844d3c3ee45e9b924b;
 0x1dc1b1ac389280188e937566071b84bf8189b955d0579b6de5ea8a5136bc2ee9;
 0x27f71c5ca774ce20028b8140f144472043917cd4919cff64d848a745bd569180;
 0x22b2ee53b302ba2e836b98783e15eb6de9d15a72cc7caa374e61b51dd0d2e2c7;
 0x254d85065f87271e86d7b411d6acc280f9ed257c098c9fdb04a2ca4df7c7d766;
 0x28620793f378bfe881e098bd2ec62beb46899f37a54abd053cfb0b3bb8d5e754;
 0x2c19f26d0836635b04f38fa30ee5c648fa0ea1b202eb0846821acd3c699cf061;
 0xf9ed87e9a1ba7ee7c28bfd7ac38ff3ba10849fb04d3322898ba9fe0104fb445;
 0xd1deff42263b7cae8a123a1641b7258015476161ab881e1dc20e165b3f04579;
 0x5b275e07a9e23f477a9f0e2294227286528ddda6dc74484d76e6aaa714db5a4;
 0x1bc255052aed9dce37765bc5a95de779273a96f4bf4013542588b09783ea7fa0;
 0xec2286cba99984d38c3dfb80cc08aebf79a4af8ecb98ffc53ec4abef79ea6e8;
 0x1b05bef71fc396f1be97c82c082d2f7a4d8b32ecf30c19875409050e3ad35886;
 0x16e93c7eed0dc0006958d1824d0dc740b5cfb8c986fffcf1b61d100f29eb69a8;
 0x1ac49ebc00e374fc647c65981dd93adb8998d6128b917a6235aa5623ea461282;
 0x727bebb845f6d4744d3ddf12c2aaf6f2c2a58e04571ff17adfd905cd57c60f3;
 0x1d5659be4fa9e713d3e428c29d34f9ffa9ae0f2aca3474543a20d6254b2f0199;
 0x1316e470b54f0dcd5311b6a930347bffdb833901e02448a9419f127f8642fd77;
 0x1f7182906e184bd88594ca2589ff849eb2daa30caf8cbf5213ed3fa4747e4581;
 0x1319714ecdc7e6bab2b7cf57d8b088094a003f2d4f88edb0d0bd8441b4cef318;
 0x88c106fdaeb323a76f94a0912add1b66be216084a42e14bec597248e017d88e;
 0xfb8ab5bdc6168d1ad8769225641d0b5eb4ff8fb5c609c661da8ee83ea2a0488;
 0x2ddedde404858c4f097c6c8ddb66a00381635c4f155014d3012ad1daf790345e;
 0x12d92b7c7a88c9869f79fc61e4ea1c1c881bb1320c0b7787c6437e230b58eda6;
 0x21cad521c1abec464be99a77f0c0f792a5aaefa104bb7c036b6c8a405050aa4d;
 0x11047fba7de2a553c3ec55251768314400708e617c9bdff33a49663ca2deb319;
 0x2904529f4fc0291449c3af18fc9f54722ad2c751620d8f6e0e1f2a1382cac5a7;
 0x121fe62c53f68475aa2ccbe28d58aa74a2abebb2658422cd6f145c2662cc96a0;
 0xddb1e4ea7a6f367056eedacf793b94a5d37dfa020e655e90711306dc7142d19;
 0x268b44875f19ff58a15dd84f4bb64ea8bacc7dfc04d1ad861910fb9942a371ed;
 0x9c17828425de5e93c9eeb82d325f770935de8c24584591b744808316590319b;
 0x230144d2945f1475376bde7ebb437cd7358d501b9c954f67e06c0a6e90ab3c44;
 0x5851a8847cdfbc802889ade3444a577263d93718b2038a05b05bbe890a98891;
 0x29b5ad2c6282954ce356aa7c31085eb91b6cc49ec6bf139422c39fa54eff00b4;
 0x265fa1838ae2f6d591b8f33deb78d3d7c9ca14014170ff650618b601443be916;
 0x1e87cb86588c69bf4f9eded33f03d497c15d61b0e48dd04594df336d8793a23b;
 0x24594f115063f9a063ccb1a580e8e9f042526c8ccf6e4bf2a6a273afea167f06;
 0x1d052b0dd5715c889194fe17e83763ca6f7bc79a204c4c40073bc8a516f934c8;
 0x1e7bb691e67410a24507dd9a5cc323c0f86f97b842bc13ece75d88c800e76049;
 0x2b7558d08ab870d30b18663ef9c710f97ce4c49454d34c4bf714be8865b80c76;
 0x14fea23fd7fadd53c9faf43e1e30c1e426668d0080e706389f5d44f8d0cdb448;
 0xd8f85ff6b797e9a28f4aba6019337412d7a778c3b7d7ffe06d4e20864491add;
 0x15d72cb12a8e6d3c9c800f96fdad51cf24527768c9d1334c608084d5a0728cc4;
 0x25f75e361c26495bd9e51468aea168f9f097874e562d727f030a8cf5d8c5855a;
 0x28623a688686721ccfceda6c9d786832e02654859b8150e21cf036fcc154192c;
 0x31e707664a432be639934c2b2daa575750cc41f840459d85a6d6d7d8abbbed;
 0xfd555d5513b8c6945f97bb6f3a5d3b1ff2ac2d81a7612f12eedefd222bee1a6;
 0x2a1fe11753b7a8d0977038be1276a355857ab20cbe4484b08b150a46c8e392d5;
 0x22e7970da1008db5772bcfba19eab45385538e2545fc20d950a60f840d9702a5;
 0x1541fec85090b07d8856402ea224e1bb2d8a8a9d1192b9a13dec81b8f69682b2;
 0x17c37be74622c608e70301092edc69ebd19d17be9a0d44bc78944a309f221cd5;
 0x26032c97bbbb5c920e1208592a4f5246b11d4d78d63aa195ce386285bd0db4dc;
 0x2e62d73cc8ace5bc12f5e5aa236ccb730830fda62d6dd935c6a3c420fd9c40eb;
 0x2f026a82b15872385978b49c6b6b487659e4f5cc394de6e6ee4aba26a104e229;
 0x25d29761cc1e49b6614ac429444e19c070b6a24ba90e7ac726672c7cfc363270;
 0x1ba97b48605e1754e7e17d1af7ee496e7750fbe6165caba1529c89cc67f27911;
 0x275e5aed25464202f1b713852b4730275b1ce92153d025063e0a15fa077b51c0;
 0x2b363e45da3ff37132430409c8008ec685b22ebfe8438df6d3ed4a787a762e65;
 0x10ada3d922f994d88afcc40cd9ddf995ae2119961df6b1daebadb62262f43f2a;
 0xa39ed164286e39b01282d6519cd022111dbd0ff83ef1556269a63a010083341;
 0x1c37d6085793a30c47d92caf677c0ce0caccd2982bcff18078a46b1148cf6310;
 0x2552caee804699d4d6ca75bef4a58f7408f97ea307b448a5c40d311298562263;
 0x72529903f5a556c8c51e143c97853540a956bd3b9502b1a43fdfdbbc66a5b2c;
 0x1a9611de6b18894ad967a44f129f48af82eff2bd0fe40b0bbee63ae07bc8ab76;
 0xa014cbedf93be2a924b9aa3253e8f832845a8562d459ac932bc831e042524ce;
 0x8642d914725572bbfe7eb7f7b45d917b2d1debd3c44d3636cbd6617c129b24d;
 0x9f8138cf03fdd6bd110149c68dce4ded8d45206e8016fc7d3ce6e2b66f743ac;
 0x1afaae2609ce7d15c7ae47509767687a58ddc2115367151d6f38d2ee3373016f;
 0x1e273929c27ca3f6fe04fbb488fbbc1d945431fa69207100dbccdbe2610fc984;
 0x345fe0b8fd130b8e3a3b2379acb34ef73feed141b806c074621a4e051c149a9;
 0x17a3a98a7b70a445a3aef301635e8e5e8b277eea1773061eb9c5364f1f76773b;
 0xb124c9ab4def719e49619aea6d374bb2bdd842d5b8b84eb55665334c1439170;
 0x20acb7a69cfcecd60733426ae5a7472db9b886e2f11369aa9f0f9270440cc1ce;
 0x137ac68a78893aa457ce3af79f84a52ed31df7407c5feb5ab4b4d9aab3d479c8;
 0x2822e5e8243c20edee38cb142be3e7d7e005d274fc346522f531c1ce0b0560e4;
 0x19c53be6b70cb5c79e3e420968b4548b3ee55dcde0ed28075945b2ae8f2331ee;
 0x270a91c925ede45c008bdbcb162d9d532717577a01ee948e0a9913ecd2ef9d2b;
 0x29ca3e6811d8037a309296a3fadcd7371e87abe21eacb37c8f4ac7c98f1d48a6;
 0x2fbe832874e6a044a4e5ee1b63fd7da24910ed685e1dd12444b80c95f959b91b;
 0x2b10b943bc42b1306ae3c0c962fac147f158d9e2adfed079f4a8b7cb836e998d;
 0x6927353ce97f1a2c75b57aa42d742974a60dcbb13586f9999e52d42b7bca433;
 0x8819fee01c9b7f8f1d987fc3f2cc70de7854ace6de0728ba7a0e7a5d721917f;
 0x5504a16782e9c95d1870166d6ec853dcd2859d0d4cafa6d320709069e221340;
 0xa6c9c3c69e558408931240885e4edf91e5448230aa020a59721e94ee19c4b10;
 0x1638a245b63546e931ee796d3ad7f8fdb1f7373169833aa6ddd4ca0d3499693d;
 0x12b5ab3d45071d84539be772c9f468c8cd6efef151a3f5b2b52b86c47c9480da;
 0x2f9d04c7aaf854180b7c9943a86ab766f1c61f8265bffb8477263b59999a4ee4;
 0x11709a242657e17727f2429c6736ed1bf6c756dbba899aa4eae5ecb6c845562d;
 0x29668f5f5c4a3246bc3a86f22132fc0cfc625666f99e640dea0e1da7a9b5670;
 0x2b613d4804feabde47da71f26e13d61428f2781b9ce1fde088902decf515f322;
 0x25f3892eb57862f0087557ea0e93867d2bcc0220f7da2bc073ca276d750ad83a;
 0x2103f7a5214f40e2ff64474583cce0914d2e9a4efc022f07ce5cbd791f543271;
 0x14a8711072a8aeb4e3c72bf7685120f2325b64f906e2c1ee31f6afad6c815138;
 0x2d8200110c740dd51bd22f4267cab97934e5adb86daf1c2f0405c2781bda7ebf;
 0x5b299e405131bb5631072396c5b57cb87f50d070f196533bc3f0506c8ff218b;
 0x2595e4e223f843dd01b550c5532cfdc51931fdc340a11cad1019fde0843cec87;
 0x1ba92bc78f26df3148da920c7b4084f015ee164662a5abb3c94acf36f78a957e;
 0x92caefded5f804924ccf1e63543d61dfd570007a1052abb764983233cc63e4b;
 0x1c0dfade3ec3d45119238c75c700b826a422ee02f45431ec110449f1f75675b7;
 0x1da05eac4674e99b9546876461369aca20e289e67d052cce10fbf418b0a0442b;
 0x5086928cbd0d49403bf4ad6f4c626cbd48c1d9c7a22957306f0bddce9da919b;
 0x1d32f71e4dd99385a2929a02b92912085173b482548e1bc06efb3ad96fa31170;
 0x18fe8945c081f1a9937e20359578cbdb19343ad0ac50435f26dc8193cdeadbf6;
 0xc27a1469d7c1bb60c6923587a81bfa0517587a3b0d3356826a45c3ac8afd4d4;
 0x1a0bcdb274bad54e1c3eca1e4e14eaed3bdafb0846b4fdb41c0cbc6efa4900c7;
 0x18c15a3bfe80e4883601664288df62171afead7dcaeec0fbd959b3e7c6a8f768;
 0x23af2addfcecd8cf403bee8c4dca81fb7c978faf147c990f260f115b2d3bc8f5;
 0x186efb35a6b23d406efc6237e175dae02de9c44e5dc2897d5633cfff571c939b;
 0xab171e95c605c6d5361ffd31e76ff8e4eb82ff2da56d659c66902e9d392879d;
 0x1226226d5541e6086fb775843787ca537dba5a9684ba87ec0de592cfd20e88b0;
 0x246c77e6d2858a34a3ca29d3597611adf328a4a2211f74d5fd04dceca9830c8e;
 0xd7495cdf807ac3d6184c18dd9e858b250fbb37c11a29e6291c12540d5e2bda6;
 0x230853ec47ed72d1ffff83abef03b5ff7678f2e104b9296d8d29430140e89702;
 0x141d86088c6316ce0dc3a560961a50f0769cb7de216689077cf65c6245ee76a9;
 0x1fd4fda571ea5db50bf9a375b7e83ee18dbedc37914b06646014a50092a81e26;
 0x597cc1432a973d83896fabe991e7c2a537045f9a8ac612ac766a37bcaf9c9da;
 0x16dc93239b74eab89823aafd91397dea7a5c2fea07e12e562afe2a94e7f33cba;
 0x15d73eeee6d48102a0818cfe70ab0f2add92ebb7c8d847922aaef02054280414;
 0x227c8330e2d7a7de907eebe9e82f7264c16de97fb23f4bc0d563a7874bcbf578;
 0x1b952fa7b0d9dc8e9f3c52a957468f492a2aad45cb2d4a5037a474a6b3231afe;
 0x2dfe192bbde5da75c175ac3265857bce905aa7ecc585ad20f4997f67a5042e44;
 0x18ce1b58bd3f2bc554b746e90f188a6705f842be29f85b6a672309909fec2156;
 0x146d5f383b2efb9962e773afa4b086c164b0aa5306e537745f15680a85f6a1b4;
 0x5130082aea77203ab1e2819d4704f0e9d723d06c4579b1bcff7b9e70cf1cb26;
 0x122d2c1c48550ade6c88d3498d7ba8395d44776319f12648c14cacbada6cc30;
 0x2be0dfc2a9ec2844a58563f8f0115944e9a39a8fbccfc3d79830f4a494a429c;
 0x2362b83ecd5ac86a908533a876ca1738c844425822fd0f5e0646c965e94cd99;
 0x27343a0ca83b7cbf4cd78fec7c2bfbd6452859fb0f7b5c14f62391a8fbb813f7;
 0x25f66e4c31aad3d3e8f8940302a771de770c855cb7fce3fb170162449950059c;
 0x1728135861261e3f1995b078af0a0f1236eb457fc6201c5aceb8c93f87217b63;
 0x153b4d75654c5fe604fa2fc96bbb6a0ef1240c8281f8c0b6432bf1a529f50eba;
 0x1ef294fe797568f55253c2f93c4a32ab6937a1332bb1c412b8cc15e74b3b8ef8;
 0x2a5f302c49a8c8fd6e4dce1e265bc6ec0eef34cc46136f9cca664273ac3d8eaa;
 0x23215a1413633606a8c8f22ba642bcaa8fb559f7cd322cb08aae796735bd5270;
 0x1329f0d6fa9d80e536ed120858dae6e51376624c7daae3ba79795a5525a6c484;
 0x2664e9a98faf74e1416aa645b64589ddecb3bc2c85f9a89688af7db70ec60285;
 0x305d940fdda525f49e235ae6d25f9d4471e396e7bc3a133aeece1e56eeaa7382;
 0x1271af6fd004b867484dea1dd43cbb5d58d731dac6de8dbfbb3026c17331ea9a;
 0x231fd9e11aa688e3312731a6a027ecc1331516d00d7e30788c63521aa9326251;
 0xe19fcb863828bab9d152e0504ce09fa61faa3e0a23c02480ef6f866655d575e;
 0x13030654176b06afcb611203a2369a442e863b3c0d1c88b89cd4c7fdf4f9ef06;
 0x1fcd60b9a522c7405763bcc95462d77c0a36b4e952c461bb2eebf1e842854559;
 0x1bc1cc4f122eca17b951451c773472f0a3f6a57c185319ce1d2de0d19ba1f21a;
 0x2c0318563dbf99ae636bc012bf310175cabb7663f2a6764cfc3d67d186a21f7;
 0x1cbb1a2a490b61176f9045b4b0b60ec03f12b15b30555a3932aa3c1ffea6b3b7;
 0x6796f10e9ba669dff948e86fd462dc5cd95ba8079b02c2b2b4ad1e62fa37de;
 0x7e6a8fe4a4397ba709215c5ab272f3c541465cbd8e43653dce2f59cdef8dee5;
 0x284e093c985657bebe96bd671120c92995bdbd2c991cdd4909309cc3722b5ed3;
 0xd2071dadfd269cea8740cc0299323cb6e1a64bf123dfe1af98a1787a6ca3c04;
 0x1945b6f5b9cf94b95d9341fbb6b8b4b7b461b96386c1e9cf3c7c4e3b2f083550;
 0x1576a69840a50e47e5ab4f21ab39d53190038594ec599700415e12c4692b4678;
 0x1d9f7484194e9043958d6ee7c8a552c0d25f9587e66cd899d2cf029179641675;
 0x1506003f39bbe412e1a0a4f2a57db29e29af2ab61006382f6a1d4ebb8c39437b;
 0x2245f77edf9eb3e22d647853698be8a2783facf92b14b8392e7368a459da62d5;
 0x1897e74c6f1bf3139060eb8049b95328fff4e9db9260eada1e55346dbbdece3b;
 0x209ff86085273e680ced957d0e4e165c78bd9670a24969e83ae8b0db12638c3a;
 0x622ee9d23b0c61b05845b23853e40d88d73593ab851e8be3b338ca7ce8cf5af;
 0x2ae0659e9e749a47e3e0d244862ccf5fd6fd6e1af0b28894b4ec72940774bd9b;
 0x2c31714e2c67c045454653f1bdfa47db03928439d44e321232023ff4d2fa0fa;
 0x1c4a827874bb4a455d790cd7a86672634038bafb12d3b8954cf3a3faa87ffae1;
 0x134da7e19243eeb08e0f7e68eaba7641e98ec35f8ab77f134dd10a8adc8499af;
 0x15f65369e51155ed42a0d50c3479d7b880cff87e81765a97ce8ad28b9de6725f;
 0x1081dcae10fd7fec12a3328a60678c2d760133860cf30f5e45a0fff5ba95fb14;
 0x28206b5cd44cdb7bf177a2e3d60ae385e3ab2c7c8ef9daa9b3dae35fbb992678;
 0x5d9355306abea7a1494b4875f06fa9f81f4fb0b85524aa61b03aa053baf43aa;
 0x869ae8683287423383a2317ce58fcf88433bb546675d6971ca292a0f00aaf33;
 0xb07d8566ac61df9c2fabe8d4062d8fe46bddd15d08734a4eedeb91dc9873891;
 0x25dd57a9bee5a30ef1291f0aca75d55f20d11f8e0f2e69704013830f26c22b5;
 0x1c9e2eee7d79b79e19a01f617f37eb8fdfbe0420f3c5fec58491ff136b459f2d;
 0x1a053731cddfbf2d58d723ba5d50f874125755c8b2c236b11a2fae3eb15d154d;
 0x109dd67f06c490940396df6410636f6535ea7f2b8eb9baf8e3be3ae1da12b374;
 0x1b8e939a3cfb76056a4793e85b1b42fd38059856c1a434ae7ec90be0407f80ff;
 0x1bb4549873191701fc74397465ac489ac5adf990710f9ae59fc7685c489f2e31;
 0xd971a30765153417cb648298e392f4f61defca06a05b4e423b97e45c8ce15e9;
 0x2c58f7231642e86db82dc34a11ace0e87c24f9a1bb8e9cd926e073f74a96a3e5;
 0x1797d37d7ee35e50dac62ab43434d3c103c7442b00891dd3f8bf0dad7d7f44a4;
 0x147b1cf0b44efb08f03bc4924877bf51ef5f7a4cf15e1adc57253a33f006c607;
 0x97667a035e3b304702995a8e51a212813913fb94c8db886c6c4fadd5261b744;
 0x1d653ae96dc57c1bfec7cc425b328e4f4a7e017621b6f528188d2fbc5ac8460;
 0x1b39cd9f113388364c77f755bf1fa42b706870d61dbdc416838f26459f4a2630;
 0x25cbdefd82649ce519688b4e4f853341c11e14eca83b70c6bd27efda86352931;
 0x42289f519c5c7e22728b74ca92afa8ce890cedc07a70547fdb8fb7e467c8466;
 0x1cf966e94f1d7c69613fe1871f2704d239e1804179dc7ed1301dadb0e10ee728;
 0x2804d255b571b9ab3f54011b69fefc0772db77f529cefe27eb0acf1e4373511c;
 0x2b274b23b66d9d561d057bdb7ad38a96341b953943a4bb361ac57f816b44ab98;
 0x1637057ba7c5dfba78dd8e38a2e3a8a4141ddc2dfb41598923f66b5ef886cb71;
 0x1e55cde5864bea5d60d7c1ed34e6036c007d76d91d0929e81e1929f6305322b6;
 0x1690e994aa14899d93ff21ab98ffcae9692d7e3f00ca258684268c06b7c80632;
 0x27df430f854092fea91a08eb7e40570382563b16c78c12b8e839e7e7e3d723f3;
 0x262c27865c6ccb2920d7a8d7ef181136cd5f7788cae7ab9be23c7498d23d9e0f;
 0x14d8d4ec65500428ebac44b267b322e41d5cbdcabc277ecdc3cee7838b0877a1;
 0x1d2766558195a3ae3031bbfd302439b08cc85d608bbe36e6d8c9aeea2ea0b66d;
 0x11c2be8af313169515f4a855d0d71e80eb6167bb88d3533b70f818eb0c945cc8;
 0x20c9692f4a3fadfd0ae3d2f7a78ea300a4417696e321503b0b6aeaebae7e4549;
 0x28cd4e2e7c1f3ec3343e44f6cb1786c25dff23decb785302820d0dbeed3302bc;
 0x11f34dd9733bd3d0822c7635dc976b2cc2f6707eaf4178561ddc5d4f563a27e4;
 0x2d6c790965582a05f8e3abfd1e069e414a1df5d86a52db0fb57de9201d9b964;
 0x305025e1c03aaa1a9b43123fb9f35399c6edcf30dff7398320a78bda920b1ba9;
 0x1f9a91691a4a3aa765c7303f4b7ab8ccacd4d834f5c8e680687053eac7b86323;
 0x3f134e018dad8b80ccb8dd780c808d3fbb1eb2222c364a0a3129048259d29dc;
 0x2d9cdc3b3ca2467c237dee666f37b7e2dc58dbc59e0be477248961efd6782b20;
 0xf437d8f3cc4dc487e8971b038a11324b7a984c85cbf698d2823b2c3b71f485b;
 0x12413aa63de038cc0427b1acbd24ee2ce6cd19b37149c6ca761504fc1e39904f;
 0x1e42cc0b2b4bf580173dfac63ba6210d195e078880467cdad8774980a186756f;
 0x8d62b4ece35499b60d1beca4f23a9c3d39bd6798dd9818f95a9f02e70757ac5;
 0x2924988422b3cf13ee98c513f4fe249c3c3fb944805288b50864c26c2e398875;
 0xa797e9016f8f52786057f1b2a3cf50fe20f1fcd98346a958e4bc1c50ee8b685;
 0x63d8222baf254dad1667f6bdb24c860ea17a33121763908e8ab1e9c3ea48fa8;
 0x1815d8e9cdcb9c3b7d19759c898b078a33dfa3a38f3c22f1ff4550363603cbb6;
 0x100541e3ea8bf5921eb66951943b5fb44530076330d19c6ccc49d5fedef81589;
 0x13ed4a0f7d5a26c05266535f8eeb1eca63e346fd7ef20db88edd1d1b05ac1fec;
 0x217fb49a601d07a6e772122074f7bae116fe2061315966ee39e7b3cb4f51e2db;
 0x1eb9080e0f7bb6f01b3b05f9c60c62e0bfa768276e9e59eeaeb63bbf06f5e127;
 0x211d02e9d453de842c6e2744d5ce6557a3faa6467cb923755d543abfd302094;
 0xcbd5f7cb609c7e5adcdbb25f6f0cb74da626a4254afa409b9d2c1961b4dd4b5;
 0x13ec6d0550258fa91057b0dc06d8f00a47d40c05aa124dcd1124c59f4e22635a;
 0x1258ca1e77cf9d67a8ba02d1f665bb405b388553a5cd9d6c43037d0824ac4bd2;
 0x28c5a7824391b529e9adb062d3983826ee1e7bbbdcf2050aa24045b2d5acf8ef;
 0x19cf73a54ab1f2e4421cf88acba44776de1741a0b317cb5e1e2012df57287bae;
 0x3011455d11c4a1433e6a9f6ea9ac559527d7a17a0191686971b7836a3170731a;
 0x17b7373ac5c3f3e20d71b349aff449c73d41f34f1d008140ed5829cb265548e7;
 0x204a96353538fe08da8072b3fd97d64b245e064d9bc901f0c0a18efbaae0995c;
 0x285a72987d0f0f228cc694d10def85d22ba358e744825522182daafb14f4c258;
 0x2474bb9f91f6f5401fabbce0f102f974cdd061a5e57a782d5b239cf7f8925a96;
 0x1b45841eab52a5105aaa42cf7f6d8acec5c06ea8a8b0ee13ed691477054cf5a4;
 0xa3a4b8bc77d458c8eb26352e92b685e00602a68dd4a9f13cac10e88ce972ce9;
 0x2cab4c359d890a1dec1881d24dfdbff978218003735a10392cbf6049d5cd382b;
 0xd0fd0694da677f99a809f785ee1ef067751322c28613929a8fb7249d3e6787d;
 0x29e4e09d975b50201c40a8bb9750d31f30ca3601e110d17bb21c5ff860727a50;
 0x115efe78f8b2a72e8a213c24b1f5c6efe80f63470439e678af721a0f04221370;
 0x29b3ccdf150428583feaa28461cf1ff1a4e49aa92f90c6f720ee2fa89b589031;
 0x2eb754990f68975867e35e9589436414b88a25440bdc0886623f1a568f516077;
 0x989335bcfd41020ca856ccf61af50321eb1d21ce04d1581db0c62043fa209b6;
 0x208a9857b859c3f620169057519050719043b2d42c669ffd4b681a1e52159150;
 0xe7f8469184f41a9eec6990459221b111b01c5dc0fad09a985e31576e0000410;
 0x25dafa7bc6be0a1f9fd21cbd71a64e56bfa46fc7f27b2a7b135904a0f7672e6c;
 0x3da2dc2049d07c4d185a16a29800f785bcf6228cc891f1ce30156fb3175ca1a;
 0x47b5ff19a973402f4621e51ff3146513505687f720e2ec080b6e44c46881d3a;
 0x299c01d6095a1d660d4e001a6821f800e50efa1366c25656d144cec3b0294c65;
 0x1662d7fa007ea31e89e692ebf522794e2d106cd844f8f0dd5d0b5f59759e44d6;
 0xfe4cd065090dfef40d074039bd06228c925c77bced4b25c6eb2985ea6da5e6;
 0x282e49e314c31b6d337f417e9da54ac7b686fa6cfc1fae8b58273353be658678;
 0xe6cd752537a9180b86fcbb5ba8571814c7780b2e486697b18a8dc3a159d9fbf;
 0xcc70cf2866f123a2cdf2cb9e8a238813b0112de364fde0552d38062320bda5e;
 0x1aca51b94c7479850d3f67d07a710f55ed784d4cbbef6f045422b80b438e5d07;
 0x2670a1cc090bfb1db16c528c1ad51478b58db66adb1ebbbcbfe69f5ae47ca844;
 0x144b566d3667faf0eae3ea9c8c0e4be553a7917bb6f8c45938036611327559b2;
 0x27b0264ff594fece22cd26e6092542ed28851a75d1f15310a4091bdbfed36fcd;
 0x1f608a88e8d2dc5bb6cc91be2f474eac4c3a659e0bdd373f9c6dfde4d6a0add7;
 0x122d0509d2508c60e8a2a6a83f770f27d24aa528a40427db069093fe8e78a064;
 0x15ea3777f61dd2f8d4860b202d3f4eddad0f6a5ac5089705be0ed60135fd988;
 0xf0f1c69e52b1e410d49a46939eedbd48129808923ef9f05de025f993741a4b5;
 0x16dbd963fa198fc9a3c230caab4580b34d25c6223d611351c9657702e5168545;
 0x1d85653beac61609f08d4a988b85c581a5b574c269821e66b2815b31521285c;
 0x9ff09f0cc9a53c87802865299520b8639f59b6a5caf06cb80cc80fe960950f3;
 0x650ae88754b4ed48d3520aa7771f4ff9ee40280b85d9e767d3e53ced36ae0d3;
 0x91741b2a425d5a56b2f914bcfca7699e385c734bba606d394261b6367b10263;
 0x2ef48108bbc4c7b67f1d00e045eb30906ede0032a9838e68067580f22c15a386;
 0x11bda846a5e5868bfff65e9331e0bec764a72dba5549ac66179a4524fbd6e3ab;
 0x2b6b3bc942da684a5812478dcee5f2bc0138395cbbd0a05ac6b04b6e9df0826e;
 0xe117fc5897aa6d7ce2025a574c8e4f1651fd95ff1e63c32df1fad41f2830473;
 0xd285c64565bc502acdaea74795a0a64a46a148b904ef986a7aeb3a9e6dc56d2;
 0x98141a57c9c6b72eaa0bcdc98f203359137fba1bde27afa94181d755823c723;
 0x1d113cfff2cdf12cf8353701521ff920e8d10489f477d57536b59c600812a023;
 0x13bf98387944aed3e268d0ad15b281a82b280fd924b8d4eb43a05b23e0f36ebd;
 0x1c84249a8cecd1361a4b66b6d1911635ade640f4981ace2cdc4bb85ae7199173;
 0x1888f869addf2a91230bea0393ec80b7cfb4a4cbe7a2a049f74401e7479fe4aa;
 0x257341d8632255d76f29cd7b33d890b0c54b0e97b8cd6897886b6e389a8d2305;
 0x1df9bbfb49acc99c43203403c99923a6fd9c8bf7f9aa6cbb91bd1a91aa4d7e92;
 0x2a288ce4b8fed1b94cbd37adc8b6f814a3254feb0d0bc687213c1077648819d4;
 0x23dba7c996de6b3c227c23a70785079fd4232a17f19d0311d561395d993a4bae;
 0x199231edf22878bf880df305412ffd8a3ce6a555b1e7e81c7c3c72aa02b358cc;
 0x2cc3d9d1107e7a5fa6aa9497994316294c7d31898d80ecc3b782573d81932873;
 0x1847e8e68d4c183f3094888dea15007a6bc6b35daf79decc9f0ce88b88dc3c65;
 0x1ea791dbd9aaa3d2ad56e590aa7344514e45684ea3201dc9bba200a046c3b896;
 0xa38e9e4712de317a533e3c929d6ce749307e8849137e3ebfa2a4d0bf6c080cf;
 0x2de42647c0232f7870c412596bacebda08bf27fe124e16f1585cfa9d1f61bdb;
 0x208c7a7f4dbd4c02d11bb6840a3fd96ab78ff9623cd0a39e3df3accc03fb5dcb;
 0xddd22d2c7a22798707187615a91f9130a66d2c0d7d7a015fdc35a68deb8e388;
 0x2a90b2d586a6c041362cf2667d131fe7c426075013c33923b0c62e3ffa7360cb;
 0x298ab2e353df6ba628421948a02952b2afda68c463bfa36050a7c1418a026643;
 0x8da6d2ca619829672809813a61cc5315f02460d8b1757dc014f947b729e5803;
 0x65c9c7619f718cded1a784f0373fffea114170310b3105e2628eed621a2561c;
 0x25ceb8bfda01132364f07044c33afc4d14755edd1bd6502528c367497c2e1db3;
 0x2facc79173aa070593579d64b0f35841f65cda3b47c4ae4e675113a9eaba231;
 0x92f157ad123e65d991404a2704a91b23bcebfde142a1e20d88e13e8fdc599df;
 0x2e47ea8e1bb77292c06ec09029c1d1245949fe39de87f4101338417dd3f72bf3;
 0x1e39369419393b8ffa389a34392449d953a992d7afb0ba34af8f2159f1396536;
 0xace46ad0dfcc316211a507be4e87127b2180a16b2444fa8917459961c030590;
 0x2e25fe7c19d848ac780af912aa4299cd59a55cf679625fffe9c14d4fb994eedf;
 0x1d8d31d97fb5ebe90c25ab3fb433f8a82ba9fbb4443af83c7549d2b7688c17e;
 0x29561c80c9527ae48a5f605db61e69b0892e43741f27e38715ebe14554776c2;
 0x19104cc8e39a77156a55aeacb90058a42b001e74298de81f2d18cc617760db08;
 0x1cb2e1388605bdd6583aa13a6eaeb2fc9ecde1337ade0e56f3e2e3e3f81e25f8;
 0x164b7c0e87b3e37cd027652e2fef38b0897675ad34baac7a777a78a5928660fa;
 0x3a2c5c52f34b9d603addb63238347c204e9bb1e65fed2b2d8cd09428ccb0601;
 0x143107befa4803b1a04269d030233f68d927676832011c7512bbfe2b22c35785;
 0x606ce26a1a3b7d8bcfadf00f30d4ff0dfcbfeb1437ea0fb35f918510b1c37c8;
 0x24cf1337b43c827ea97633e387c7948df90a3c42a8f7f27a1efa5e079036f982;
 0x1c26028b3ff7ab73dd2cc99df0ac3caae4a9f81be4091ac7fae5767e4436da87;
 0x1e0e4d243dd982c611637d510f43ff32874ea6680c88246a053121fa0e302a8f;
 0x404f39181657306e1eae8acd510212389713698606b3c8c656b26cd4f2bb73;
 0x1138aa24e42bc883993d4c5f6eb785a8c59cb7bb1200186b5193afbe1c2ae478;
 0x23b126fcde502df569a036f9d65e651805ca040b0e017355c6aa990e1f48e8a6;
 0x2e761239a389a531493fa699dccb3d86125533a4608688ad2f159278dcac908;
 0x18e087059de0eaadb5e3c5c4b9279cd76dc3f6d8a0d060558b19c3cfded6a6d2;
 0x27364f27770f58b6dba3d3f1666e504aa45e867b30aee59144a53cb281528965;
 0xfe00ce1679e3aa5f4d6b7b80e8e2022bc2f8045eb43a4f8fe9f04cd4eaee94e;
 0x1afede9489f5ab94671d20d1ab49a5ae0aeea4fa29d38ee212e0a9cafaf5de05;
 0x2fdb0d7e75731eda93fc931e8d8f59762e0cbe15bcf6e0a3ee1da0e899546a50;
 0xb74792ad4e5624f94cdaf5228d8f7b7641e759a25ef4e30e802e3076ad09007;
 0x407950b2453c974580b9ba314aebd49d89052a1d8eb2a606fadb4052f2d9ddd;
 0x29b8d1ec888f27ddb52f8e366cb07a3829a821bfd57296df667b49699e249593;
 0x25d0c20a9006bbabd4f5160fa9eabc648c7e41552a0762b5d350cc151d6c4020;
 0x2f3540ade2e57f26ce36acdbbb4198cf0a17fcf04c6c926bc3283a11a661df51;
 0x14695ff8da20904e07fef545ab104fdf0dcbaf5b69a3b83485048a0057e58312;
 0x16c7f28531a7dc674e8f240e35d75b08c6673995a46ba746bc718f42912ff69a;
 0x2e2c2616f6bc0201be908941c83c38dd7cf79c47805ff93bd640ebc552c4ca0a;
 0x63bca2d89100a11021bec39f11590ec08488206e016257061ccfbc613357060;
 0xf8c50aba399310f30c201d7be6990a7b5061d52e1dec5dfb59f69ec93d7af9f;
 0x10b6435421a2edb44d8045a51332b050f137e26b37d4298dcc33213225bf1452;
 0xda21a08e5f73a231b94e20dc513f2681bb15ad12f33bae3d5f71a4c0ecc97fc;
 0x238fad1f6960d619947d509d97efddb3e2ef3e30f18a26642e282864a7ddb426;
 0xeb8c17eed2e330329401b5ba5966bbace115ccc893423b26f224fba2af1179f;
 0x197f1200a29e7fcf3537b187554dce9edd225cbbd8031120c57fda9a2a2d6cd7;
 0x7e59ef9a273220fb6709ec8d1b831069b32169caa98e7f32affa732b55b827;
 0x8798f412ce2aecaa57a737829556e5c05bea822ce81f856f9cc095c6ba65747;
 0x2c43f8adcc2b39e262c252c3309e5ffbd6ed736bc0ed1e45973aaf52f7e0063f;
 0x8c1d017bcf1edd53e4dddc010f9b9979f7a0d0dc3fed34dbbd8b0efc49d196c;
 0x21ed2f1797b5183a2719257ff3eb1d3bfa896e6119929dfde80fa34197627222;
 0x286886b6067d627947891e65b36f8d4b7c81c5c716ad95ff44e911b0341eb0c4;
 0x1c0ae38a58b0cd3e5df96c8e5fae5f9b19b7ac5dcb839edc4213a5fa96c95f60;
 0x543f286b8254edc3f5323bf6ca470ab50eaff46a75e096ea9a215508aa4f7cc;
 0x25bcdafb4d5b6dd773d7b3cfcba40f8cc8db7675bc541d187c21537fc2c0a340;
 0x28a81071826eb4f16615964306aa7b1addd0336e6158b30dec2773dc4fe7a662;
 0xb2ae92d96d1937e5d1b42c830388254dd27e60d512fe8c417b85fca8c9b03a6;
 0x11aeb340ffe89088b98a4fee7204585d7db8423fddb1b41064b785aad0a2878a;
 0x14157e2dab04208eee16daa67f355bdb04f7014036d3c7586cbdcc6c1430b82d;
 0x154035799252f5d335eb15af6bef9e12d6f37e33b43d4c099e89e518a4187c42;
 0x145ee4885281330b255068756690f8af3c52ffe3a03c6f53c101a841a7ecaf83;
 0x8c60b040006eac8f019307afdeb00aa9314bb8306b8fa60f8c1434c00d2ca8b;
 0x1e0aabe003e834900958a13b47914ac4cf8f89509c001c7f8ffefa499f31800f;
 0x12a0d132f615b78b0777aa9136e679b8dd334137027ffe5ebb281214ebbe4a83;
 0x3a7748c591ab7a91d8f25859e06e77c66cc0088f2bab04e919508933e84d98b;
 0x2815a7d428f1abfa2ddd7b67c2e916e3cc8b2d6950739f514684e8115f0ef0fc;
 0x2a4e69d67391052f8e2d9f09cf09b0f25261bfc0b0aa208b1532e2eb2573253b;
 0x28f42bb5e8069754d72b97f2c08ba8acea2ef1c21b3aad642c5cb04dcb4cee6d;
 0x20fb72c032f2cdb3caae7ff84a3892097053ad8c2ee097fce6b247450ecc3987;
 0x1369c95af38ec514dda67ed9ea6eb0e18e0e1137f70e869528e37bed1876859d;
 0x1c021f2449f25dc718673ea93e652012b14958fd9b0268c30fef793429b73e2a;
 0xae3815ea26af43c33567e41f83e305d0179a059f89a228e824db1684c54964e;
 0x5bd2be31565865033475b0e553be2f47c0f7b1216f739365469174f67f8f982;
 0x2368da2866a5dd17d187564fbc2a4ffe8682afe7140a9d957046c2bda1a0f669;
 0x213784bff6ef1d44d08cb7c33602666a4002aeae491dd58196b0bc9d731e3bfa;
 0x1dc824be3362a184ee8ed97489333ad2c5ec8ac80fc29cb1a3fe93724eb5985d;
 0x255b2a1c202a2851250ab9d1f41427e8031b637aee29ff6a41d2f16e235e5d2d;
 0xc7af6613e1ec2e006780fef74b37a1039dfe29c76f6374c811ca923962f1de2;
 0x15536861d874742904cbc356a66f3033a43306e67c3379b3c397b8d73979713;
 0x2549c7bfad45cb19310828ccbd3b5b80325893f3f537bf6900b37d96cc10262b;
 0x17853e6a2be92b752149605e938c59ed5b98a51b5e298dbf0a3f42e785ec611c;
 0x22fb9187e826fbc34056155b64241d195a021c199bce96140c45a066b755ed04;
 0xe01dbb02d04ded9921511ee0b41d422a47df1acfa85cce84341b3a1a415173e;
 0x13ee7aef873f8a2b2d7612cd2ceb88694d9dadad37917e8d323cbf7ff85dbf13;
 0x6728405a1d96e7e9121047c6e9e4fa91965cd569b8a55c98acaa8c7990586e0;
 0x1b8d4c1d90f139199df8da04f6d098b38e8f08ff0815c7c50ec70f0f221d6b86;
 0x1bf50f97a290f53dd99387bc9c3ffdfe2f878bb0ff7b1e4731dc38f8806d469b;
 0x708564cc6c399de0e3b96dcc06ef877f839229aaaea1526527b8abb7e8a1c72;
 0x61cf4c2260afe2472093e2b18d5b7a63e023a0dd2332fc11cb9c77925369e14;
 0xc1012dd2f4168a4ee6c8db5c7b51c8f38934e9ec835d0fd12bac1afd23bffa9;
 0x10d2c7b272f6b1d02160bd78a9fbf556fca6cd21c7bc86e23abd7497786ad20;
 0x19a7dec681440da95b1866760bb8a48a17b491f71a61bd48cb7ecd9f0cf2a2c3;
 0x2fea37daf7c788558782a2d4636bc8b12a021d680655e16d44194e88a2846e1d;
 0x93181302b44dfbc064feb7ef479d1788c5b9c6e76f00247bcc1f4f28d87364e;
 0xd562f7dcc8b1a57b47e7316c2832470447d46b1a05d15fb87d3550d52e310b4;
 0x31d768025b65139dea57c8234259faafe28a1a4add5f4de09fef5b0c53a800a;
 0xc8c252ec1046f288ec63ba23dcac68b914795281ee2dfce5c3128afc6799391;
 0x249923ae3dad26470f071c56d93ea8a4c45d9ecbc335c18355e0c8961a8f37b5;
 0x18feddafc99611ece003ae06d7ed3ca7d69a7ccd5adce377b9eddae5df20a67a;
 0x1d64afdfde99be84d37faeb3740ab4844d5db1798346e3e220e85424e4e0318;
 0xfb8de6ca433e586c7b5e1cb0a380769e6bcecf78ae4d9e1c09879fd9e28247b;
 0xd5b17c9447052c898a2f4bb21ed827eb9d36eac34e49bbbe1830bda935f038b;
 0xf2b7d51ec7ea6577b2e733f03525ef1e8fec6bd4f25c1f579f7f655ba9327d3;
 0x2b23d5be39199976493c64732ab655589e05532a79a5197d24e046c281c0dd1e;
 0x191eb6a33f3e80fbd227fbdc436fb8b1e3aa37b03617a7c87587a2cb068fb2a2;
 0xbd19b84791c746fd5b810f68f10ce1f514ece00a0e7749537c10844ffca11ea;
 0x25a91a2714a79060f77b2503f0d3070fbdbbd187d34d6097ae283bcbf4d65c0b;
 0x2e507aff9f00820e21752e75690c619b8a03b1e2699ec7bc0bd550fac9f6313b;
 0xb0b051cf9526c4019612dd0fd2afe774a8b1e828db2e42fadaed6d26d51ea17;
 0x156b4cc0466b953f9f389eff9a1c7e261e902ac034bd9d285559e9c58eb5129f;
 0x2f8887dc7c16c111475131c409f22cdab1440eea684fb76148fac7f33aea4e9;
 0x1f3a7c2e46bd4fc1786dd949ded2e2d33ee5fbd53130f87235230209818346b3;
 0x1102546f1c65fb38431152174613608dfd17564aeae1764f1570f72bbf479950;
 0xcb2b67c1f4aeebf54e927ef903fc6aa0e6acf0d4b1427040e981a102d15f84;
 0x16f7924c29a61d1790d23da54fa4dcaaf1e264e46d6882c85d4fbd86f2b97c2f;
 0x1a8977e7f9f883320104bccaba7b6920d4fb2b3e15d5134184c8c06ffa9cbb5c;
 0x38dde93666a06ff6df51857a40218b6c34f368e7bcc52d4504b85a9eea9994;
 0x9af8b7ec74f96740f8eda9f69ea72c08f5e2311e78c0633bff78876646d6ec1;
 0xf06e7643fa6fd0b016904bb1234855dae0604472aa1f9e7b12b0ef594780f5a;
 0x10ffb0f0d659b17cab58b2e7491212a734d45b41ddab889beb65518cc2b2a3a3;
 0x8393e0581bef9db272b5512d3d6ac16289a6d51a7e8fee8f0ca854b7e7968c9;
 0xcd919f11e3940afd0fe3b7d687ed7117b40100f89a60ba1fc7cf743962cf97d;
 0x176cd2d5dd5039afe4f9c9af84f1920de7c83f1d663a3dccefaac3c0acefa46d;
 0x1ccf20b79ddc78dc632e41c11e537e599b418d4cb9ab88a74101a27a668cd46a;
 0x1f8cb61ed38061411c750acb4c313d2fd167fbadc588a14fe6a30dac6719a12a;
 0x2de3744ef2d7114fd6bb58fb03d0969bbe92fbf4db49b636a2a48764183b679b;
 0x152f8c47e86343d9780324c37b0844681b1a6c5b76dc7aa3a57e957edc0aafde;
 0x99e633a5f55fcb80e3494c20e6c607ff11cdf92f45acd6134011ef96e23d4e0;
 0x18f88c7dd5dc507f63264610d668b8da3b1c704358336718bc68ea22d5f731c3;
 0x29e39b42c32c642ef36100451218da7b33d7cbe7bc5882561a3a4c2f30b90c2f;
 0xdabe6781251df0230a700efbfdf25b0776b5b55e2816be9b614c3433ea26c5b;
 0x9a1fb48c7575cb215e981afaf6fa4e0f05949fafaf7ec3f1ebc1a6b2e0d61fd;
 0x954ad0d0b6b9c663b1936b4301194a9cbe677f9a38ed0b544122334bc509f12;
 0x20d340bda271bee29f093f2a5e2f257580f7d773afe3fd6006fb5d9c9461d337;
 0x4e175a9a568c9a3473226fbf67f3c8dbdf71891833feb516ed8f1dc952d143d;
 0x16efc53ea0c960e6bbb67a4930b7714a504dbacea7850303d662a56189688c9c;
 0x163642b36df9c9b99d6a5350222139406ff558c486445a57a8c200065a3f85f3;
 0x16885f2d67dd2eaa6b6e6e4a1cb778fe5b38d249d1d668156c033e36f8f35bce;
 0x2154d6f24acd0cda11326e279ee9f9e84ddb4ca4bc11efd7136ac5d54573a933;
 0x162cf98c08205fb5f4a0e9cb76c65445b300800021db1ef3b2d7919f9c202fa0;
 0xa6fb67c2c0f3320e22b4124b4feb76ce1330f85dab89c4477acd78214f472b4;
 0x26021cf74a02b192f0c4ee77938e4f452985f021c469b6e84f7df3dbd86535d4;
 0x2c8b9704c6b41769c9059238f51fb3827a9fb146ba424e318ab359358bae0d77;
 0x28fb6c843b7e89259c13e51589804ca40a10f5b97fc4185449b1a61a6321518d;
 0x1e234c17405876154e1af71c2ce4033078099705cfcb718866b347d80ded098b;
 0x22836e37162efc88789ad4a5615f8e32e16a05fb2778006490a2fafb3743a7b5;
 0x28a70d2aff679df7246dba5fc5d8e401c7261129e8a1965c5c5ed57f2ee5a7a4;
 0x20a5a416c4101fb1ccacb4f101ec93c08b8ad9f4bcc0cd34c518d6bc136d4d62;
 0x84057a3a39dc92da1f3da1a1bee29679f343096287d1044dee2fe29cc88b068;
 0xedf44da29ee4186c3ebadd1148e1011b508aa94a544915f9746f75c57df777e;
 0x1f75f3cb325a537b11c16002c927ff5d8c75189c632bfe66793252d242220d4b;
 0x20acb68f015bd689779de6a6c70189e40f929ac4843d1df1d78e6cf25f6753f;
 0x156c068f32e0d7caaa30e86ea973f7ecc4bc2d53049970c956b0aeda3af888d7;
 0xeb5c66c8630a1c3b1b67a287dc32eb874d7b8944f7e2e4b6d5f81ba9a86351e;
 0x86432ca6c103cbe76449ff27acdc0c72ef5535b3df5eb728e1d4caacd3867b3;
 0x2591a12a1bb2e85526f2b0110b0fda970337bff3c42b0d0e0921fcf12e13e91e;
 0x4ddc8e152142c57c766b50c4c8baeeab6813467c1cbd43ae57c95b0f4b74cb2;
 0x16bef300d87c6582954f0b2e5fb74bb04b7852b2d09af537dbb87f4c037d114f;
 0x22bb40ac95127ed05da2e9c37f14eda92586b50485efb61bb57e7b058a5cc5dd;
 0x2152a25e328616ecc63f9f625be4ad4ee37a296e5a584926f1c1e6a99d335fa7;
 0x1bc5d41bad17b44fc5aa6950aa643ede01d373b0aedc703c26a27dfa6337d04c;
 0x19993e2352fe907ecef8bd33e642d549f9784545e8aed512af7eea0a5703ea4f;
 0xa8e009ab829fad34ecb98660ba055ed46d9e19a5457fad0e571346d83207276;
 0xe5abaa3b20ebedddbde163027514ad22ea8b6452d1e0fdfe5d6c92ca18bcde0;
 0x2dec3c17312746988f783b14f92fd900fb3bea137b9da241e2d6858dc7b691e4;
 0x1a05b78180f3bf45994f7844bbb59f02538dd3a06a1f462b3a8586d45273ffce;
 0x16d22b879334448785405b6e74e823fd23ce82e68db2b392bfbe3ca740c141b5;
 0x890771aced399845ecc5b9cec64a6fc925f28e39e48ea0cb473f2ad38b670f0;
 0x2530f400e734ed8b165b590db1658060cb45178fc4a3b6a96bdf62437c4215a1;
 0x15e0290d7ecc55b275f623a63521d3979777442a14f18914d1fa8361bbaec66a;
 0x2047fb78d48665b96c4885e5561fd89c6ca44218f4aad4adf202f32a3e3435fe;
 0x150507a482c9b02e9c8884b33b154f4d856228655e7b64d0470eeb92f070517b;
 0x26098db852bfdb0733c07727ee94598b5b75f96170f2cea41b51088d4fceb8bb;
 0x1969394fb4a65784c3ca4b1fd9d241648e6aa58bf45dadb5848b9b55aeb49dd1;
 0x2ccd5ba044e09902e540bc58af998861195b8d1b96bde96f059ce2158b8f4d27;
 0xe241a1e88c1676b2cd2b48ff54a473d3b5e8c95da39c24e84375e74f7640eb9;
 0xd64f55b84a0a5249d7452cbbcd2657bc2cede899380169ef36acf73c6fb42aa;
 0x276cf981b3c8485a7f6e8a85a0c37bfe9485eaffd46796829cd170df1d25f5de;
 0x125ab705a0f35a6c9e70e37cf82cbfd1b74a47ce4dd8c636520ef527cfd4996d;
 0x2edf2bcb182b6c165d77946a219a542afc9383e9976271b19e585cdba3b4c034;
 0x3044593e5115c8bf4b42bcc7374eda1f336b1d00cf30d0c6e0d8b8a02e70b17;
 0x2c9288d07b86474cbf24db27b74421dd413b90870cfc013f00ecc0da9d880086;
 0x8096ddb7dac5cabdd02794e0653def787bdcbbea73661915b20b233b13b4938;
 0x2ca0c65eddea643c6cdd2b617752f71c5b36314afb56e2d7733c54ed7dfdd8c6;
 0x720ef11b7868de6172541965560951e30f9eacaf95da183e793ac4405c7aee;
 0x15775168211ae2c9505cdd3ce6188782d031648cf812d9eba2b24ceca36277c0;
 0xdbd7358505479eca3fe7ce7b3c75615018996d00992cd43bd2736bd8ee0fa6b;
 0x151a6143a0bd9763292a6aeaf7c0992ab65ddab5d35f2e713287fbd672b9f6e9;
 0x119830a7f1e16e539fd97602ddc967e4119d9a48d6e84281ad0e72139c0a54e5;
 0x166d4955f6c7422f53e750084462bb82ce565161c78a71f68c06abfc80c5f578;
 0x2bf7f7791ad848e6c8804113cb78a0a6dc5f1a947341006ddbfe84dbf96ecbc3;
 0x9b2550da955c2746eb3a0014c116e67b061402072acf2cdddc84af76da21cc5;
 0x3ae24e58f82a3e97fac8b390c64434722325b338c6de16ab07ea83da7115b89;
 0x22ea98db27502e4142824a333d94e297e0134757f316dbad2371cc2f0ad18d21;
 0x2d42020b8f02617d9afd0693dd8cd09000c02a94aaa14b35d8ecd808edfc1596;
 0xd948c0328d6ade9ecff1391cc926da7311bb4b311cd893a9fe917640b26e7c1;
 0x1ea1c2c8c2824809bde63dcc62f6b06a149fd2b9bdada635a4c35ede26a79e82;
 0x2e90887277a6e6e8d963799798c9993b41e1d65845c17840bc1669c3432c64b0;
 0xc850a86697d9a609d26f02a99e116c164f3d8395d3bd699f8321f7628077165;
 0x16d89099db9c32d90e67a74308b85c8867d1cdf0ba3c97c7a3c050322f912329;
 0x122b8bb74a1b8b229c491ad31632da8e0b90c66f52be1cffba1f50bd740148af;
 0x2cbbb2da62a9525283fda5fc5782e4e11c0f4ef559c7157b83c599fa51c11bd6;
 0x1644c2d0af390c7835bf9a1fec01ae087bddf1a21a3d988a75c9c5da6006acd8;
 0x147cd2bae2e9b717963ca623cf2f2b7fcb95672d056c1d73d2af372d8dcd6cf3;
 0xbaa4d0ce6331d92b98beb9c28f6afafa0b9c2ca2c194b9f70a6d3b628e3ea25;
 0x46f9a4aafb654f4a6b9103d20814e485b0a00819f200f8b2fc4844eeeb9b871;
 0x2e6e482813494b77a2d153f8ce9ac84f614871e2d6d6410a7e9e9a786210e9dc;
 0x219aefe0530bf083338865d59e42657596ca68ce12067fbc845c4b906ae6d8f0;
 0x2b93eeb5f5defaa2cdcf165c91dc4b2c679f0a8275e124d9a45e4ef49ba78419;
 0x2f5270ac7581f2186ff3bcc58c6fcbe53c3a8912a5e2b51d073b0e3e2a5e0489;
 0x10cdbf5f96b3ff7196f8a6caa0e8745493277fa659bcc448efde72b71e8323c3;
 0x2fd3890b8256cb06009edc1ca614e5b89896414190c4ac912ddd2fb0a54547ed;
 0xe0158a776bae6cfec58654426a8e0874d2a0b51580088682628d85b8f628ed9;
 0x11d039e75730946e1b43ff6b1a36ca08cc68efc163a44afbbbd181aea1e3f760;
 0x71e4c48fc462575c67463be4de4c67c178e690f7da3a02555f124f722f28c09;
 0x221d11a98eebbf2aee536ea32d02ac18d539ad54ee9172e46a232a010017b2a2;
 0xba4e4f69c3496368a277ca36f6b2d8e740295843219e90cf7cba25187357f1;
 0x300c4c6484de03cb35ff858bb199f7a84a414f0f728de84742a88773642d0aa5;
 0x1c508d314cce78c25d37c299edbab30ed7524e1902b335bb4c9386f596ef3f72;
 0x2383eaa5db4f7ad7418a38459523b2b795a4f151505bd796916c5e05c0b7b721;
 0x95007c9bace943994fd0a9f9f2bf09f8e576893256aea86969d1bd210f2249a;
 0x2ebea4c9470c5979655c311724df6a0e451cdb84cb2efb05830374b4fee99a71;
 0x24b7e73f62f97c13ee370552f0fbe6ef0b5a6e647f42d95f3c66e31e0b0e0226;
 0x803599f8035ea689063376c1ab9acff62203f5e0c1ba15ecb8efc30fc1cbdba;
 0x2ab4c0a9e9115cc1303530733bea83654fb3d8a8ad4adbbca1b37ad21f8d9b35;
 0x10f10b0d5b7a21918f84263cd64adc10e54f8767ada0a7fb59d7191c31d68f4c;
 0x238ee32e5ca6f2911047e0797f4fd2571dcdcd775a81bf945787dff83c1fcb6a;
 0x1ced6ad5ba466f3efddeb749c7d093d5a5a24348c9bedb513de6047627ca2d29;
 0x28429555e34e7b9d39b0f9b8d68b09c89cbc0bd61dd301aa951da42b77ab72f2;
 0x1b3a4e3db4dd67a5df83035ba6e55aff71f517d7e6692238091ffd1da89a1655;
 0x13cc2082bc604551ef4fd01a81a52261f7979dbea0eb84296f2f6416d57d460d;
 0x263b9e3cd8dc5a4413ce8e8c573a8116de4af9642bdaaa35ac342ac8705ce5fe;
 0x1ab39521acbdc88aabad582fa222d6adf5633cb16fa853e6f4ee0414dd8143ce;
 0xfc133010270202b550a0322e569a9653a21f034a8b305a61819c26a9cb538b9;
 0x291875d007b5cdd415acbc76c69b6122c86abe51c18eea30136bf66571588216;
 0x2e2f9329346d920a98386f2c0a367740e032468696fcd5ac6e2cc6622ed81d6b;
 0xf093b428c6244578cd070ca16e69b36b0b8e2a585dabe4af899efa7c5f7ab34;
 0x85bc13b698239310b05501cd59a78e9d1f3aad161541bd43080d9fc867d81c6;
 0x136222a91f1c9487f3ff320b9e3baa52ef2327895f414c4d4b2b8ccbfef82d0e;
 0x2e9341e5aac4da39b3363dee93af0482244b47679de4eecb5a54655e11841305;
 0x28988bb98a34d5195384445d76cfbe9a7cda979693d25caf6819739888cfda7b;
 0x13b4e0317e3f9cc2f3f49f7dc14c971372518f2b053de35762225ed265cd5b36;
 0x19eb35c7021e14e946225fac7aae09481548d0eabf89304a3f62ce915768a7e9;
 0x1d37d1e1ec0d7f119bd33a5116e19b07ccb42a6bf7b129bf2aa1dcaf069094fe;
 0x1652a1124b3a6fc2029e43dc24de0a2e306968b12092787e3d578ed1d851db17;
 0x2d82e3d62258db1a035e60aecf90cfc35c2a68abccee846d6f30dc7be13136c7;
 0x1717bf8ac6146ab14ed32dc7a340f8bc0165bdeee55222d4fc0d1b9b8e87313f;
 0x2fea8ca2751b165005fc5799cb9c928d3f5719fd377ac3d5ab988cfe7fcd0b96;
 0x13122020261638533ce1db1818eaeeed3a3e5461925dfaf4d1ad253d00c0ed96;
 0x8e63b96916fc88aab33140f6ed477424caf1b792acd7ea43c32848088b35b61;
 0x1faad0336f78a518e2209d7e85823be53ead506dfb0eb4910664121f4db6d7d7;
 0x9e63f2c7fa18fdb6fa1c263ad5f6cb0c39e75741a94bf9f32c5984347369172;
 0xd5812bcd3b13051f2a5811608cb30968de4f9c36dd7c4f6d38fcaa9aebde1fb;
 0x1cef48b1d61226b8988148159e826f942e93972ce36051f55d0dc019f9ebd106;
 0x213d3f4a801784d43909b5479cd159cbd628baf8b075cdb2cbef556dc12061e1;
 0x1377884a51544da78a20bca27c033d666c05179f6f0c3b57a144a4d7c154fe8a;
 0x2c2028206c6a58ea6b3fb8bd732935d210439f6cfeb683b7fa0b5f2d9041f86c;
 0x291c29c826514d2807fe656bc2eadb0a5f264411b1381b0d85ee215e4806a4fd;
 0x2c7f267d39069e4902597c9e3348b84a950f91dc7eee91a8061785de0c231723;
 0x1bdffff475973387eb8cdbdcb9adc7ba1c9f63000a333d6b5a77c5b9d0efce6d;
 0x108504de6c323d7bd6c6a54b3c7b2cbe67e2f863a483afcf8cec4d66849e2822;
 0x143830758702da287919107b796f3e2c4208537704b355ef6d7d4af3b16519c6;
 0x20cba0f444c54b7d446e9546034760bbcb21e94f64d6b4c9aab41356da39fe34;
 0xd05f1101da898ca8034234c57c1b8d90a84068cf4242d3a4dc3ec6a71b56a91;
 0xd58c99e7396f36791b921ef6b65b06f87c391b66e774bf40da42af79368e78e;
 0x2f0d35b918fbae52212674d2c086ac35ffef289d3bfd783e761838f119866214;
 0x2cf4868270ba3c288f4de29e985d0117ef8f2032235b5039cbfacfaf95b9f6ef;
 0x14cded55649259b92ac128bd6e1b1bdb71152644c4d818c1d9a3a0e3a46eb2a;
 0xf16f496633341d1709e144de29846f7fb1a40e41bb3909f41e791b749795d49;
 0x2076608271804137e0c9f68c1b0aeb571e4d34da3954e07e60670e31cf4d691;
 0x21415fd472789e80cbc15fbc4a5e3fc96567d552453049f3ba8a0a4158d8b293;
 0x28d80c9d6979564568b87745409fd0c33e38efe056510874727cacf65e7f4068;
 0x7fc32882a7484c03cdd3a0e24abfe7587ef02c1cc52b11c55ae3b626f8b0701;
 0x2d8dd2efa9868ba55ade797226fa74ab88dcd0cd6bd94ae685f00d42383e5f8d;
 0x1a986dc0a9c125037fa3b30ba0bb49959d21ceb20ac5d336b09597c422537ae0;
 0x21f392183eed36e011b851311afc2caac6fe76cce1eb6ca42b9813702bf015c3;
 0x14d56f1ce4a77333e61e10d44964474bec74349d22c209bd4c1e3c0a3df5022a;
 0x2326ed65301ef1c24feb4e9603860caacd9c6f80683303caeb0ad7f26cab0970;
 0x2a3d9fcab4c508b0725e9fb8520ed06b6d29b522e5e8af4e4626ba281ee85718;
 0x29cdcfde40f6fd4b84b8e3678b51ed546be8a3a0d0025bf892357a9a2375bcfe;
 0x1ef82bdad09b9fc4f7d84b1d355f0931b096ca3d0db7cec8e33daff2b4093a86;
 0xbcfe28aeb735a664a360120b09176863374c387d6c0fffea5870bc0ea877cd2;
 0x7f3e3ebb0d7fb60bd576ad9e7cb241aa310cca0d5d45014964197f7594bff2a;
 0x2ac56c23ad3b8667fb05469317023035cb87ba64ac066fa035c73837ac8df1ef;
 0x1e2e9f7e3702fa82feddb16036b94442ef1611ca1a2f1ca2f47336f16db80f9f;
 0x245d55eaed831cbeafe45ad8ceb4fcbdbfc9d0ef8ee6ff03e31068d0832398de;
 0x1ea295decfda9c0a400df14483ab3dae5bf43987ed926a02df2e7cef2bb64ea4;
 0x5bbf568249f3ccae4c98e2549dbde639882927b39e4f39bb7d05f37f6af0d0e;
 0x1c1291aab9893e46d2762beebb1bfb97465d00f30da6cf33e860785874cad7d9;
 0x17634d1ccd51f9433152634c359773fcfc9f93f80fbe65baa59637703646f7ea;
 0x14fc8f7234f6912c40f82a1bdbce93fa1af8d24fcf7abeb0c2d4f5a98ed71c24;
 0x27efdff5ad6678d5fc5bd1da7143b076598b90db77772a8e9cf5c5295e0af7b2;
 0x46644c4e7022580e83eee330c7228469b7ec8afd154a47564f0ccab9ba89872;
 0x2c00d457f72e3452c86c1ae3645e645d0fee2d34f5d502ad1b3ab4d0ee3bd431;
 0x3d24d7d5f668e0c76330b300b3eb77767ad982a878f643ca935a00742a21ae5;
 0x3de941df807fb1cbde0f88b9ec89b64c11252edddce5123d2443fdabdfec534;
 0x13968ee75a666efbede2dcdc1cdd9a5e15543cbfdd3d045486ecabad362df82e;
 0x2a49f11f36030eb28dbb1c123c00bc12491a461126edf2371d4787dbfab690d9;
 0xfa680c08661ce0671847eb582b5ebb305c69b6166a2d3d32dadd35b73c87fff;
 0x6d5a0ba4f63840b7dbeee170772dbc060c4e7da78580f7f02dff8dbcabe2adf;
 0x1f624813ff4e4ea551b18a754fb0a852be6ade91807e86ca6def238cc0f23f20;
 0x104988ebd6577839a2b07a037ab4d20e2b00daeb6451e21ea61028b2b6acb296;
 0x4e71dcb7afa2e832487ac7f13b79eec44d7781897e9075b9198dda984d7f7eb;
 0x236f6b011d7b96496fa7baab4c5dbe743276bc974c0d2d17a81ff079a483ff20;
 0x1587663e2b5d740eaef59e36292d85686b5854082cf903e4de4beb5340e015d5;
 0x11d45895b6239ba0bf7d68ed7790502aad8e13c8b45d313e323e27432e2cbcfc;
 0x253c79369fb2bb163ad88c751e81d0ed903e0fe6f15e12c0fcfa9a06eec12476;
 0x18913458b59d37dacd0dc16811a34f844b7253e8bf4d7dbecebf97b0549c2b01;
 0x8d5bca196a8ceb1ddb165927affce0e3e57e42b22a130392bc52214749297d7;
 0xdf1eb022b44f3c8f358a7424021402033eb56d439bafca09201a463712f6bb3;
 0x1ec99a4a3dbab58148f9cc3024da287f4083d70a91966a5c76b46b0a27bd651c;
 0x1cef3c619c6c700bd295937063395501cf4e208182209f6718d57da33a23e66b;
 0x28006478a2117dd3500711cf843ee17b97026884681a5bed0621c157f78a13b2;
 0x1f8db17184e9aa39e5ac0306e471408a83154340ac6f9c585ed910d0d897ad61;
 0xb4dd727de06a0a5946961b6f5fc0bcef0263f7e2e5829ddb6e49008cbc1b16b;
 0x217209fa8996d860daa1f9c210eca2580eb3f1cec5aabbb56bd901b3d9fc871b;
 0xf68b53bbb8bb4798d191608f9542849c18697dd7402db0b5f30317d2178befe;
 0xeef36b6a205fbbe8be6815a1983e6cd146e42295eca46dbb316f976bf0596e6;
 0xea89f549e8977b2ca99be52e9fef5713a73e5a06663918c83d22bcdb017f15a;
 0x2bb5f1827e14485da2183c2c00d624ddbc01deffbc3235878f07a04a47bed1bd;
 0x2f630711a84b9a470356b3cfc2ea0b9e09be16dfc9a75086b4b5978b69e8de4e;
 0x2d1a64e0411d666c0ef9f06b3eb1f0c442913ca621a54307961896f61fe74646;
 0x15eb85dc380a0cb81f1511dccfaff8a5079ed3100907772ef076f64bb4fb1f8c;
 0x2935deb4412873991b6220aedc3e923c05eb87d8fddafdcbe1da6ae476075aed;
 0x212a58a5f2ac5530a2515434437538885218522ac412496ce5f85a9fefa2d074;
 0xdcb873fe2bf8ffd64fa76001023572997bde0937993bc9822928476e735561e;
 0xe39308c1281899d7150092d1f116e41b981232c9d096111d827592e32c5ea5c;
 0xa5679d09418466a7300e8a0a964f4d3bb922958885147b5decb1438b101cf84;
 0x38a8f326cc8a51dd41092f40ea3aac4ad722a8744101f4068139c5d9115ebe2;
 0x1dc0fb391c19c979337f1983b07d90ad225179d1c6bf4fd85601fcef1c1854ae;
 0x1ffeb0fdeeb9c720e7be5842a019527689b3b8f5e3d63a3de2505a964223a292;
 0x2cd6511bbe7dc9d2a8cc050225b73d69f7c2075a623fd6ff4bd024c2a69ad268;
 0x21d4706590b1854d962bec4cfa56951ae8441cbeb1e4175f5d3b61b8db79f68a;
 0x12da59528ab92ae9f0268eb1bda47594920e4f5a4526278478dd9a0107bdffaf;
 0x7aed9e16edd41aace93c2078ba1333457676697ceb8d77b5833121aea63f06a;
 0x13e9c52761d0fd356778f2c9ca94f6ac1c714324435e0105d419e112d3f42c7e;
 0x288cb3c2e45d353233d2680366d4913c125e7f2cc6bbfd65069538d89f4dc477;
 0x16af712074445c8af7578cd68e6e32e0f88cd9e99b3f46c63b84c8392468eed;
 0x1c1d9b10584a446463b905d7194c780666b9aa00a781ecf1003a6a0c81685f7d;
 0xa7c876f83ab4efd0d042493681e993a66420f23b0dc6337fd8e1ff0bedeef7d;
 0x1bb8435cd2e6fc9c768446b13a53fdecee056f79ed8d0d1d36e3a784cdbcf255;
 0x2d90be1ae182c3f440b85fd6da69e21de9eb2929e54b7512216ddce08a7095be;
 0xc9de3a0dbd2d14270f8a16c486495ae5ad2d44c0322f0d990ac4a4e024bf575;
 0x1e397c182116d4e00a53581aa108e5bf880f8fe0736e98124aca92873840399e;
 0x20a611d4fb392c94d85684590ea0aaa38e4800d027650f823bdda0e8083ba202;
 0x1ea1b882a97d732991805ae46935233eeb424f9363f9e5fe864d30237484ebf4;
 0x13f67ee6e8ffc6ff26648bc6e3106b834a3354ed989d351f4f08f2796910d1b9;
 0x35d6e11fd71458caa1c0a7f76828e3360ad2af2e88a7aa8e5e5fb2a6110a56d;
 0x1254beb4738a5e8e50f45fc7ad73c512165e0c20c0c764b1747dd24da4b5186f;
 0x1e0b231f595958977dd7571e0e6988ddacc14ac1fbe98ac784f8684a101f417d;
 0x1d787be18d93eeebcacf4eb98f2226645cc1aa4354e6af4cebeace6b44001963;
 0x1b629ce1b52348a9865abe18e6c537f88b2455e0f0de338cf51dff14e09993bb;
 0x102b0b82afcecad50b6cd976bd3acabfd34ef4f57c78f5fe7b57127d166504bb;
 0x2c4f4e1436d85e914162bd51bb9d13bfcaf9f9d30ef53bd75d8f659820124eb0;
 0xe5d628e75b9cdc3a9898c4722023bcd26c2307dcdcb74d097f4fe00bad021d5;
 0x1898efdbbbb625982db0dd512e8540ff986925bb78ea970cb5d044c53dedd4b3;
 0x2a586ae0193dc050c68a6340d6387b5944d21cb79566610ca15cc0afbbebd619;
 0x2c8df3a839ff2b2e1071ff973963e163cbde5994da3700d24c0942a1fb8f3e81;
 0x2c40e73f41f7ada9ce46fed754b987d77c7b9c9be1c866cf0e50491785f9aa86;
 0x10a44419a271043be49ccf50d187302f300027363f20187925db8bdd0aa9cc5d;
 0x28250cdc61eeed8b98fcf0f9a839b0cb299f4a80f88534298660902932b1e8c7;
 0x1b01b6d43822237fa886bb86fa5d0adaecde3b834324e93a02571202d39c16c1;
 0x2b780386f9f3da9b23f88dc7fa2615e3429288d9c5de4803d42ce69ecfb64661;
 0x24984ac7b0d3a403500f0a88a73ed082f8762c1686f379d5241b64c6d1ca26c8;
 0x2954829e72a69347f4a05b5e4bb3a3e6e5badc6f7b963fedf95c52ed5ecc488d;
 0x83607f9e053a5c77ab95343c1a4620357262891d282195bcc4ded3dd788cecb;
 0x27cdc8f0618dd378a7ca6b89fcc86ceee70a7cc73d29367d3d4539291b73775e;
 0x1c452a7426b31ef9c186906b2528de2b6f8b264c7083d07195fee3240f0cf082;
 0x2a70b8f7a4f98c94dfe478396c24c0c73445153ca6a63f4135a61a7a7149209c;
 0x1ddaf2c29060384a64f142964f68c38ea9b2ddf14c9aef92b701a00f4d78c967;
 0x18d763f5955669c75685d78bbcfd9923b1e28a6fe22d19e53182bae2e387a4b1;
 0x15487b28b3f0687448c73f432cfca0db556501a9985db9782ad1f16011aa5584;
 0x1cd157f6023cd720180e59db9dcdd1d6d6aceff9b6db1ac72284c0a54157bbb8;
 0x2f2368f8d046b18934dd27f29bbff29c909bb480ee0fdcb7705273766a189bf;
 0x9d13a02ee4793785933ced2ab70bb0334e7a6fe653e8d4ed9783fdbf9a5f1be;
 0xd66c61f8b505a8efd06a8659d1f83910a781182a4383b9c734f51200dc4d62a;
 0x2d32aea4cc326f82206b91c986181f18ed3c3171a53177243f2dfc7471976b72;
 0xafde5f85a042ebe32889c6a3e00fb40c40d9a1325f2f418916b1a46e3e4411e;
 0x29a3c3d0caabdccb6c7d358593bcff8dc2e0518a9e41ffad251b50d9b397cee2;
 0x322c3386bfcbea88f4c322edb06aa6d5924122d858df34efe6373c44b7cbd61;
 0x1438c5871add7ac0d3a49acd828a005222ce8c8df43059edcfe399d90e281363;
 0x168bfa7bf400f5bc0cc14388dd1780550980e4134701a2f21fe0eceeba59c712;
 0x1dc073a172aa9728c523545245f9160cef1a76e4cf74b6eac7d113fdf911963c;
 0x26c80f81e2f12a302e630e9e4d3fc4aa14a7ef41508e4b35a0b58f3a63809290;
 0x2dbf4afaf4c5ddfb04cb3ae7aaaa6bc6244c57790a6939ec0febe2c17bce532b;
 0x905bbfbd61ac42226f3d9a1fbfd2e90eb04dc665e023ea2395e2b1cf79d436;
 0x1c1daa03e2b5bce3607ff15e37bed1dcbb5e189b073b6c20c27ba16ee2aba814;
 0x1a2f8e8d55339623c11340ae1b135454635c71cbd8d20b6a536a39ff736a5243;
 0x18535c592e62581176a3464783cf099f6b90e5cbc6d80f12398708d7941ef453;
 0x29f6bc49dc5991c8c89c9236e0535ffd6ec13e23042bd27843a51f9fd2b369;
 0xf99bda8902bc2630a41884a5c477fe8ce7697fe86a28119d5a17bedb9ad85aa;
 0x2936f41a19816dabc413275d943ef09f3f961b49e15ef9d671d119aa39e2b4db;
 0x2b3e5c1fa1bca2cfe43fefffaefadee5d8bce97f52484ace59b10654909a3c2b;
 0x2cf54da2864c28dc6817000aa815f4d585821780bb27fd6762ac6f8c2ce50398;
 0x318d4abded11ff442e3295eae5f62b9ab53c783b0509643843123b802d2549d;
 0xad5edae189c9098ae537345a1d3145b442a7776370ec6fdb6cc33cea6789c6c;
 0xc02ec64e912a52f98bc967f67d74ea53374a195e6b8df2da1c0abf95fed1c96;
 0x10b354fb05e07b72d7d655444cc964130e3ee7b63744981e3c5a65279ae805f6;
 0x18135a3547443addb809e56d299d6ab71600ca6a67d73fb903c46ea1f88a78a0;
 0x169b2d1c9533fde28f5b61725eb1db2df523c8a7f326816a48a06b492f7d0971;
 0x706cc6846991bfa50aa52747c63ab1bb357c7ceaa4b38a0b6bdfdc48cc745d2;
 0xf23a2df079a3a7f3909ffe89f2a2e5d48e08c81f56aba869b8a073b134c2766;
 0x1bb2ed4cd681047a7d449a435b1412a1a54576d1a299d8307c9325d0d9576658;
 0x28d41a2ac7b3c71974ee058c7223a0a7ce0bb5a1e485dbd2686bc1300b47e21e;
 0x25ab50f20dd391b3bad83fff0ee9692258536da228190b723073d55310c4bd1f;
 0x27b24b346de16f4f286a056a24239895adde11187ed5c7d11e7c535ba5ca6300;
 0xff16afdd9da02815b98fb92c5763b49b0ebfb16bced629b8ff2d6371090c495;
 0x8a1329feb54f08092d18db2291e91c4e17c7c09913fed4c0130fc8e7f75c9b4;
 0xcd6bd732307ec5314a14259d354bf7d277f05badb1cd07253866472d7e90769;
 0x101bda1f28311c2977cd3b452df6aa429424b87cf47c92366cd45d9926a0abc8;
 0x2c39319445999f80e7b80b5a38639a0cebcd5b0766f64230227f6809280ef6e;
 0x23e7afffd0c6fe2ec95a394af2cb724aeb088250214c099343289bdf465d46f2;
 0x2176e7a545a244ce4bc1a7c2bdca95312da62fbdd2bbf8dae347c611670ea7da;
 0x1c6067731c77d01d3fa867e8dfec2b88acbc17e7ceadd706c58aae38254ea2e2;
 0x1588b2582131d05ee20beca1ce405c949fc16292219447d2b73c628fac00cc58;
 0x232f65838476e01be1287b72f8897938f0783eda92b9f4c1ebe8202eb29dc889;
 0x22b6f2c624b637e843e74a76c325b05ffc2ae4614384e0f3a0cc18565624676;
 0x1202e2c0a73b8a2b43469495dd9531dcc8072d16e63adc02923c50b141a184ee;
 0x14e203ca64dc05735b33078ad83b969421b96aa9e8347ce2e522eb38886db24;
 0x40923212b1b7e37c937793aecc233f202d6b7578fc6f52774b165ed6784e471;
 0xfbfc45be7c5f3901abdef853d2e6216b71835c365f0f97df2f341f0f049e92a;
 0x27310155192b1726750c5bff7117c4ebec2099c98b0de8c553f58defc30ba318;
 0x19c2594328dca95959c2af80bfb179d25adef59eaa4a74f15ed3f19340a08cc2;
 0x104796be743633ccc53f728144bacbebf5a09b5bc0717ba33fa69def3f31cd72;
 0x1c97f91df1d79a0e5b7803b2a59f15ab176a207d1ce3f686f2e322314bafcfe7;
 0xa24aaf916ce0d22fe01afdc5f96cb1c40b49c48c99669354fe2c280a33f8cb4;
 0x17dc7a5303ea797184fb650273faac447284beb23e29339d3ec9d91d3f8c76b2;
 0x2e1b387ef959f82a150f807dfe5a3480faef6e7f79d15ec65f924d0aed280a56;
 0x1153c4ce1088b51359d71725823d163ce69541317610e049beba015f256c1fba;
 0xd8b8924cba44d571ef53912455227a5bffa46057018fb68314dceeebd088515;
 0x151e868f5e19e96f6d2367228d388afd8c080794d0d5c77c763beeccac9fc0b3;
 0x2fa3eb12a770e7837a8e690b715f5a811f4102f3f14bd30a308a13986a92d7d2;
 0x28318e53a9949641761ea87af6c8159a0fb94915083d1a1308be8bb05dede389;
 0x2bc3819053ad9a6656006fdea87efa94e4faa379e89c4c1d38aa12d0a141e9b7;
 0x1c124776d2bb735283d4aad14ad82bfa8e821ec542aaf7065b47657757ac31d5;
 0x2a000712e4a9bf5b395edda3092db0040d44a0346178aa0128997459874c4bc5;
 0x1e0800b41ec9c392c2efbe25f5de7ceedadcefd12d437d874dc46af997ae0087;
 0x2ab3b50a1e176957dc1f08dd47185f0ed0d9aaddec45c5cab796dd2d991e9e18;
 0x2190a0c5576267156ec9081961338a471a0422d56035b8bf3a8afe7870a3196c;
 0x3cb7bb7d3a38a7ff1abf8c9282298a5551c55d28e1bdb6c4e7377caa034961e;
 0x13432d180a4b815ff8c3f3afb4250c99e89c9518417ce5e147440df80d93e730;
 0x1596f4d7e5a9b9f5b7f5e1a4b6d068b6aac9092877b820ebe95a15c59830fa9c;
 0x2b757032499016fc85df940d7ea78a6b6c8a1bef0417c976554640b914dc9b75;
 0x2b1528bf87a89c542779e1d6671a269331a2b9a64b56501a652bef0dc5bd5099;
 0x2fd143194441382b4daf486d159def58f1c9869aa0a3fd03abd5d9c923dbc601;
 0x84e5bd84e9f5a3f8ac1a0be4269e1cab3bea75a651eb476b23af0a9436e9e10;
 0x26c737750217a4e394e063815275f3e99bf87a6339e437655ce91f99a3f894e7;
 0x11d44a14a217454b7cb9b013a7ed9ee78d380846903dab930a9f39c072a54e;
 0x2cff02f46b0ec806c47b7c834e0c3378172ca0f7719b62de17f598ef8f047731;
 0x18d2159e3a040d8af39903894bc9ec51d49aaa6d5776db31f1cd4dfa616268d8;
 0x18f0110ae1d067eef4dd057722e96be6616b6c5edaf101db529b049a4e6126e7;
 0x2870e7ca2635b5c3f898656bcd8dd853991704e07ad301612f4d7bb174bed2f0;
 0x2674f59ed1fde5bb303cd010aac8a91458bea65a29db9a163ba3ab313cbd6c76;
 0x3e34b2f33b176b37d8e88dd3501772a8961f02a5bdb29814588a44988157da9;
 0x17944c0c7d9146518157f9200092bc82bf2c5672dc8584823659b07a0cef37ef;
 0x1267aaa77cd7199c10f7c2bc5581a42f3c7b08371e3aaa60bb423ad2e2729830;
 0xefac3cc0daa23f1e378d1dcbdb2edd6a5d84954dd00553fac96416259123831;
 0x2872ef46fc5700461f9af029c3611400a0a80497b58520afb43794da71326a97;
 0x1abf3fb66b933fe5c436b2e90dc1dbc6ac2ffa74cf60bbd15d183134f069b42e;
 0x93da890a6a4163a094fb0c3140683ba9868fccf8e42bef0a51e7bd577bda0f7;
 0x2520ca8de344289083f5d01264ff76a5ae776e69d65d671442f52a680242a44e;
 0x8f3791175eb454942ba5e3fd7f00463eb88900ee9c053d105f9c838d29b1035;
 0x4389b9fcf9b26a0d52a7a86b11f50e4cd49cc758ff9c1c9352481c2b7cf55b5;
 0x8bfac675d4d1623f5486662b8e9a72fdb4973064d5cc6572a36f8691574cfa9;
 0x2a8e53108a5e6fa2b0bfd2e01a859323491aee5cca45981d7168f1ad1dd42a5d;
 0x1ea97e496fa619c52c19d5b33076ce84d51ed947970643b0a6df301102252a9b;
 0x2921097b063365942c0d6a534e2a92aa408908b6897945ee787bce67e4574ced;
 0x2113f871b713c7ab1ed7af63982cf46095821e2aaef61368eee133aea6245f27;
 0x421c9fb1ea7d058c01c2537e22d1c717e40c0396c643be3e7c029c055616374;
 0x181c57d9013554eebd5b3e9a9c4a89a7fd55e772eb2fd4b2f47e5f015b52b7d5;
 0x210fbc7fae49a8711b72744a25878d1ecf3a88401dbdc87e7620ef080e9b1b55;
 0x38a73037d04b19c3cdbf74c32cdbff1759dab57fdd42954a3afd9807537c8c;
 0x1c4faea527a5a146170cc3a85289479fb22e5bb5ad2c1900999faa9080bbbee9;
 0x20bc74457f7b36956f2759ad6a18b00ec602a039c00ca7929304afe1aa00678b;
 0x18dbed8b1ebd14fcf2858ff2c139d26fe901ce4e8b50f28c16ba6a56cbd6c3df;
 0x290e5f918ce5182793fee062e0ac82599a6039cedb0327c69cc35c484a60b52f;
 0x1270f1c49bf05b5711299838acb2d77e4d5209d650de540d000fe0b636957250;
 0x244bf00718449105a612fd99f81f8293bdfd43758a8375aac6447d67afa07d4b;
 0x253c1267e1697769dc5b914a341b02ead358261047fda749eddcc3e6496ab62e;
 0x1f6205923f15d6674f8fa3f5dcbf9b6ae3005471afbcd8571a0b02535246ff74;
 0x197d7d842654c8e9582900b5b72a9bbd5b43155c039140646b08fed032afc7bb;
 0xdc5162814338dfbdc374e6db2f4b541c598de3a6832361f44003a8a88b13f46;
 0x118c03871e753f7528b2c0834123ca8f43ca7ab37eb1fda534bbb334e94c52bf;
 0x212a8c29677a919cfac2b9daada92346ae588bee142654fa836347239d23144e;
 0x12bbf40d2464fac9e64dd04d65399fa6ef74f8528cf6a3aec23555a82af23856;
 0x1e1debb4f76f3d7ac15633e36bff09da18df1f9ea883af3bcb5ab4d84b4a798d;
 0xce98db1da5431b8dcd8adee704963f8e89a35b3f020e696d79068ae3cfb02d;
 0x21944627e60ca87a770eaddd5486c15ca5e487f4dd1ae6ec2104de83c3216e86;
 0x223ca483774a7c5d4f1ce388320e1d5f53ff95dc5ce53442aeed94bc2625d392;
 0x2501b50c7e7f729c7f4d896501e294dc91c266bd2a6dec0cbb09af8a13fc37a8;
 0x2e438c6ef07f9bccb0218649a91da9373870a45ac4524c6cbf073319a2194fff;
 0x20eb17b53e680c2b60d9f3d55b9dcc8b5db59e04b62afcb968cf6147e35a91c7;
 0x256118253984eb71f26d781504b84d8288398293cc419aef59e8613c9fafcd42;
 0x20bc1706e7de27b979166c50f3b4b713aa07a5b868f5fcc9da4faf7a066feb44;
 0x28ba38a4827aa8ddf9349dc4640fa8017b0cacdb456a901065aa6cd3617e17fc;
 0x561f8d6997b836522d4f18603799cdc60381f5f65fcfa7bce7620b8fe8c7462;
 0x914871465b2f0f3c83c416535a525082f8e6558b54de301e5f4edf52bb6aa8e;
 0x160e0b49d6bb20368b2a48a20c55da0d2659a94ab59f174de5dd4c13505b04d3;
 0x971ac2fe1f38483d27137f792f6bc0ef51108d2a87877edb01205a23a18463d;
 0xdb36e959b2089b379088932fa5251e65d4ee1f415ad497f5677e69d620c3f3e;
 0x260e6baea06a53e7947e163f0fe833e512802f7862e8708f575fb6baa7ed6ccc;
 0x103e7c9849aae12c3642ba73872141c0bfb65be896a6ce0f45ac9ac8d746ff6;
 0x19853a0ef0c493811c3168e292855f690100b73069bb50dd32dde06c96a4bbb3;
 0xe2823849ec0077c2e8cb25046f6a38780e943ca3affd973c883809e227fcd9f;
 0x15669e10f37a3d252b28f8c05f66420a4bc6e9baf7a6dd7032838972bf7cd9e8;
 0x1da3b467c133912c54fd24e00f2916a91d533ee46e68fff074d1a1467179bb9f;
 0x28c8aaa806b13f8e240e947d48be89c609ec24b42ef9b1b25916669eb613f715;
 0x1287309126dcf2034cb33aa0d01b7e5e1b020a8a08ace1bae33530d5db8cf15c;
 0x273d73d56fc498d1be414428870a92f0082658d381013de76cc13c80a2cd8de2;
 0xf73e29149d0fa5e27ffa53e4851187a653f2c5b310ede6b9598e4cbbd35a5a8;
 0x11508faa2ff4f86a4ecdfec774e9d3f904e04d0fb9ca25b99be310c23dc74bf3;
 0x8ada36165c3a78cf93ce4de9c7e13bd9fedf22b0222e5e70907c176588e4966;
 0x1a649f2a76121b00a1fd7d4945e391fcdaf3bf69443b861fcf15d923a45658f1;
 0xc7fb8dcc2a5da940996877b67908497fe074a98aa8d6008041bdb1f4dc6d6fe;
 0xa6a254a2574b86867bfa9e5055ec61826368c028e52693242f63a83153abd3c;
 0x286876e2f3e95927a7dcd76f37e4c937b4c5e274bf123801f0569bfa6fe34b;
 0x2095c2d2a9f23395d77f1a86179c512dc1301d549996a3250080f52b9704c8d2;
 0x2ac90aff52b956782ca8598cbb2b22a3285596b5891a1f60e141012bf2812ef5;
 0x114e912fde21fbc12348be91e0598b057430bdafb0b4eb9cf93e67f7235749a6;
 0x301fdf0c1ff5be9807b51a91614541bc0696cec7fb16a503029cfb4704d9696e;
 0x9a579c36f8bb8fe12c0de65c24ef587ca40796c850053c022fb015fc6bb072b;
 0x1c6f93d553f9e4f96a575325aed9682a53dca61b88507723b6d2adf2cd683388;
 0xed419728fa31c55c5946db446b7fa783f8af594158ec60ad8c1f66893c17f;
 0x19411996cb83bdd95e61aff2e6d4a57be99120783e41fdc495f358c98226890a;
 0x2a1eea5321ffc604f87d055b650ee63503584495923a451b32fc241ac114f2e3;
 0x21d5fe87e3905b6c19c384d4902bff4e573ed1df960100fe2f630f5ac7249636;
 0x222da21f4b7c807ebe8f93b67bf507df715f53c3b2ba7754604bf93aed23a7ce;
 0x11bcb33294e5f8e82bfab58152eaa2b91ef6352a9d0ba55bac003dc735172629;
 0x15f62b8e5ac177e7c52faca91dbf24e6a90edbda53ea0c54d6ae7c38247b24b0;
 0x1e329eaeb402ecf26259a1257fa85cdf1078dbd858394c06dbd1e47b988cf257;
 0x1fca943281035ed71d898d161ebc246f9cf04135c3255cb87cafc6e11e0e715c;
 0x21127d56f6dfebd40f026d758a4bb8591d3e1d48c12e28753cc71431a1db1ecd;
 0x6a69dfdeb9e80796a63b4a698266093e1ba7534ebb7e2b0f3ab58751d0cbf60;
 0x2c0a57a5cb496459e547d4366e34a9f89adab821f418b9a6c70aa1c61512ce66;
 0x261858f737fcd0820151966863a110343b6065926b133870912c595d0fa803e8;
 0x74962d54f26a02909f99bc37c93ef70043e7cc51e773a5e873d3860c57fe9e2;
 0x297eb20bfffbb3c3dcdcfb56f0b0e221ef28fcf4faf052a5284c04bf776a0873;
 0x1b8c711b0a6109a9fbaae034c0df650c32dd80cfc5981816dba5a2d3ba884246;
 0x1872c0cfacf2bf6e42d11d52d28c306fccd53c2575a9a2534b83dd27186213a6;
 0x9e802063ab8c0b001265ccf9e5bcd9a83de0f56fdebd385ccbf5cbb5da8566b;
 0x2d0177d9e97ae16ea923bc29c3b34f43b9743bb04e0af385fe4010eb92b3faef;
 0x20f64ef9f3b9143a4dca77cdb2c11a72f8e3bef8cad37a6e07d156d982d36ad9;
 0x14085e315fd11bd4311613b563658e194a8de5dce828d0b401974da62a8f5953;
 0x1eae390777228c03ebd563fc4cc11ee0ded718d0ada8ed327d4cc09a3307ede9;
 0x6472d3a9addadb7ca55ad8d286d7ef0630ce84fa631832009f2dcdadc315da6;
 0xfcdfdb353d3a99bf2c213d9a687d0321844e2371a5ca48bd41f7b25e96b6a7;
 0x224c451f7674579be04568957daef86aebfab8746b8d8d68cbb5d4e2c53019e5;
 0xe378f20b71ccdffb0b20149df41e2832c57bbf385e953f2c8f55fd541291a1b;
 0x5edeb6a4ca7a6cbff5c5d92694bb46698d2d476ecc1787904863f49914e49f;
 0x115bdd6b5c9385955a8a20d244c4062b08eeb78eb692ead7893482b00beffee8;
 0xf6a5a9c39e7623c4583d9b7215dd4e3cc97e5a8e240ace0e8c5fa8343060ef5;
 0x2aebe737741ada0dcf9980e84f021506d5f52f7a4082f0e97d37940123ad0bf8;
 0x1b1ce923fec61ff8da2ac4ac5d3c2792c9a1adf90395d8c761aa96735a38a266;
 0x1c221671ca78f00f58d5d5439c0d11bff3b9f74b62e40770a798dae970a5db24;
 0x15770a93016e8761589b6d6e5bc57dca84cb91156222639139acc6f25668ceb1;
 0xc530d9fb0d84a2b04d4fd5d2345c5c587e860361f808e5d5e60d7f6175b31b0;
 0x9c928ddd310f013a0176e314d2d76e9487c5631082dc4c832b183b143630782;
 0x75919a774265ef6248bae80704929456314b2a274a44d8be22c1a1747ece847;
 0x1cc025b3a59fbd993318dbd65f22b4418faf8a597fbe9d9c46262f5b99fe104c;
 0x10244f0e95bf93e832fe52e49e1c05830f10fba9136227bc7bee9ca10ab72667;
 0x27fc48c5fd8fece4851eb5fab288d4fd41b3eb0cce56827dacc7a3509e4fa4c7;
 0x219404cf8c7feef751db9e5d2c4db1ec96ee66701e78422f57b736faf2593398;
 0x2c1636d612ee048e2df1f38dc67920abd00676a977af875ae66ea5d5277a134;
 0x131e408587a1b372dcb79c84d4a9327e4d1a93e225e682f5a8c1e6ad0f79b0c8;
 0x164064b05249b6cc87d1edafb21c8e2bf177f979d46b68b2bfc6d2f9bc636a39;
 0x1a32d386114cf8ea9dc720717df855af4106533ab7e427da3d6f8091ea695905;
 0x26139768d3bed1dfcd575cbd5c61fc57dd2cd45b8f725c25dbd87819129f23ad;
 0x1d24e974d3c14d9a37f65a36ce2a2a593f321cdec81a40a58d65f12da202c3d6;
 0x2569aff88e4d3f209061cb023efa93c26a627daee66d1b67b99740682a057fd7;
 0x10b621d20c61e70b3292085937120b9b28c488875ecef4bb56ecb134e427d5aa;
 0x2b4419af0353be507f3d3121275f9ce9a1a3c84003f47343972248b5c0d2f1c2;
 0x187369785670fba473da72eac6a6b825fd4581b5bd52c78420cb246865845bf5;
 0x2103a328f4a2673a0c329b136fb7f008d1a1f005ed5e4ca26db74d4d7f49fbcb;
 0x799c7bf30075758b400e34108557143c4d713194e2dfc6d8a50089b1cb462d8;
 0x20aec56c0e5b894caaf4e537d708ca7f8fa1e8a1de6009a7a2fea43a70519234;
 0x2b839e4cbfc3bf9594e893e041989439863027056db91887c2dc09373f80cc1c;
 0x95c1c06a5393a5995870dda2e65b90a20433dcd97882587aac02cf8fd0442c1;
 0x8f2cf7886ffa7811e14cf8b4f5ee8ca28196b83478ded3719c2cec9a2b4de7e;
 0x1ea2763d97a919bc44c3fb92e61437fe4093253c47bbfb2a9e55b252cf7f9f27;
 0xc8e9f9166ac72edd6d7cb80e80227cccae1d2d2056d6a856a90455f56fd7067;
 0x57bb346af28bfd4bc2341d64e65b1a5734034adb3e1099cf9fcca79cda9c803;
 0x70f630af25efa8e4d8c5e35861344889bebc7ddb790014113c1c2a221e161ff;
 0x11d35bb72abd9000474d448fe22416c8ebfa152c08e6a0ffcfa2217fb86e9c14;
 0x2e486100284930c2e91c1d00add9c6c98c3114739b13f3b3f811717372c25a26;
 0x8c39ff6e608dceb35123f2d64d68b23c4a81681e5b7d0b8b8407e9aa1c50ad6;
 0x270aaab5852da02e7c1e6c8167739b1d719f2da3806118fe66b08b510aa1eb9e;
 0x8b07ed9445f3d4f9d5205530d7b6490440653070c6f4c3e38968e82b93ba584;
 0x666b480472adb317f5b138a92a4d295127befcfb83b7660681d41b96c408ddc;
 0x2e06985058af9e113eb22379cc55b67a15e193613385bbc4775a68c6c526b6d9;
 0x52319c919c1954c4d38a7c77741949a839b3f188619f74093e3180d144c725b;
 0x2f8c80a8c321dd74d85f2dab2cb172a0824b990ca63765d6e17b483734c4a4cb;
 0x229b17fefeb71703a7abe80495ff7ddb6140153f77e751fff2900afbe19114bf;
 0xf9985aec263c3be8667e4c93dc0d8812f874cef6dc321827d66fd92681ae9ce;
 0xaf15c566b682c10cc83c3bbaae3ce621d1bc3e0b45108126cc0df99c6225c78;
 0x3177754c13726a540502787f03dea917c9c0960fb205478714c9515d6a10e87;
 0x22c84885da685ac6b74e3914bfe2668fa08262ef24f1adb4c55ddda0cdb580c8;
 0x113bb87961b449ccf5595cf68329cb19309e8d065d013fdb009ab0e90645186d;
 0x2abf19247afd7fcf68fe30989a9a370b99a1f12df9b2fae30b6cd3383f8d6914;
 0x2fd4fecf4e46d2fe72647bd708f4bd4809ff961d89dcfd2ae91f812e0a3b9fa8;
 0x17a17efbbc358c53fb41930002768de9e1398f39df32a8b06e23033114c7f9ad;
 0x2288e2ab2b87a12d55a319b351d9874c32ed44cc16d93a6a63e0852f0f64697;
 0x3ac39f86700b6611f1192263d9442e900d1100f26031bcb8a8e6255ed1a9f4d;
 0xd5322a34db3009785366c0060c47d29a618fe0b2cae945def9a35f3ddad1f5;
 0x9d9a76e376e194d053554a267346b7e034a6d13447834db68d1c102367b92cd;
 0x2a1e0bfc7f387787b93cb39bbd51cd9f023ae0e738abc43de81cbbf122c13e5e;
 0x2c9ba1265abe8a7b57f69f8b3632bb13ae772ba1cc98ca033d5369664c40f5a1;
 0xe82b784df5473936515686de5cf8ea1a86455a68b3b55abda5857bd5527e3ee;
 0x3ec77e964b4dc113afbfa1dd2eeadbb676f73e27899f033c6faca223802485b;
 0xa6f9edcca76c77a5d699a217dd7b62d0d704485236ed912ce6b8de2293c1e23;
 0x1b628084d0fb8fe76d6353bf9482b59af97bf748a6e8046e8eeca9a8a9fb0ca2;
 0x2480fbb04baf093bcc1c9162f78214bfe14c3649500d798e87477ff71ea99159;
 0x2c92c181e91624bcb26fa27b6c0046054e80aebcf342de822df775333e2b1b33;
 0x22cfbcf84ac83392239762dcdb03e8477b261be19ef57e2322c043c08935d271;
 0x9aa0d0fd0027d58acacaf20e551e76434bd8216eb1ea6b317d1a6d23a53b1e0;
 0x144d8e55408c898646f2e0ddb6ec192b5e4169bb312591d2c758b97207409ac1;
 0xf1a39ddc785cb0881420f42eb4e6b5ecc10c81f490be17f815f9d7f34e5e54c;
 0x1e873af18a55663a04c84470498b245b46ef6bd781fbb2e4bfd4333ba143ab46;
 0x24a4779886a1ca1aa57204e1fb50e033e31c7f99b8084d285b0b9a933cb0b3c7;
 0xe73aedc9a4578255f1d0f8527708f9d31131205e1d6140ef9757e8e07d593b8;
 0x106f27e82457b91e9fa33358ed95a1fbaf86aae5d4ef9954a04dd4635ddc4fce;
 0x1a952947fcb77c0ab07ecf32ebf40d96d40ec7fe87b24eb92b4c9eb16f2fcf7d;
 0x197b9ed1a8ca8487b72d1e8cce502da9d2ba78c3f22cf7c05d8314722fff72e1;
 0x1608554bb309772cbc9a0aab914c4e2c400d72f9f2e5dad466dfa1dfbe05d5c8;
 0x848283bd8201837976d43341d43578f9b22609ac2e457e02664d34830671e36;
 0x14beb77cfe2854019e05160b921f96119e94d616e93a0607936b450a3e033b64;
 0x34a1494914e7698185d58864582bfe82fc0b7de6ad63f931718abf8238d2805;
 0x1c319df3b2680bd8c716696b5d2cf503e0eea5b11d5dde8e95217f4aab6abd0f;
 0x12c29c95fdebf01463121a20eb33a06425e914aa9ec61bf665bc01ca2258e1c7;
 0x1bcdffb410b009efda67f405fa33fd128fa7cff3730b3860df29b2bd561e1ac0;
 0x2e8a9b80ccd2b4387f0ec24caa0ddafb7b0fee1cace342ceb18e91223eea76e0;
 0x23149eb655b8640b7fe76b1c0d3b486c2749e647a8d20f29b5f92b2fc64d7aa5;
 0x2a650695e37bfea8acc998914335ff376dcd297583262384e27fb805a2223f85;
 0x290a2e64f4e1f17bf39d5d4519a152801ffc2d2035d48bba0eb1a8f8238e869a;
 0x179786019d36917e8bafa6829471c581d532bf10be7da1e8917a5f70a7724e13;
 0x22bc68c0855eedfaef551448da3b639271008d0633aa9e783fae52404e7ddcb4;
 0x1340d5b6ce060075459a84ff7f47920cd5318f9d127f9e524dd1f7ac1d082b8c;
 0x942c9ad7de555dd976278aebbf1d22f1beaea0e5ca2bb5b0e6e679f2c7b6b22;
 0xe65bbcb5ebf23a40d6e25703ae029a31722b64a0d210496dc17c9014f9df451;
 0x112a919bd0ceb8455775ee49e2165b5291b9e4e400a75e977ca6566e6a0bd69;
 0x1b91c4d8a544369b0daeeade27a0c2966b741a2d46131d3105741f31df20ea11;
 0x2dd85797e168d21fa7e5b96622766ec0c02246bf9ee328a915ff2e2c8d9742a;
 0x16224724314147d479ae0cbd26a381d4584a8acfd3185d4439b527619d3ae4c4;
 0x2fe84e5971bfd3a919fad04214acbc50d07f3015d97c28405dde92827c0253f3;
 0x2cb6734e19b3e02c46a803d5616730ad6343d3d923fe9ab98492921dbe14c3c8;
 0x1a857e17f2ec1b4c210adfb6ab70c7b3dd0ce6ff603b7741dd2a7eed474453d2;
 0x14ce63a350d29e5dc70f9ea2e1dd0912f8d734d32833723aafedabf41beb5b92;
 0x131d2e152c7fc3e65a89f4a22e737335ed4f68c82c5dceb438b519c352132bb;
 0x1e410af2e0c4f2d213cb346414d9169cbf481e9ba4d4431e2359119d796710f6;
 0x2c93c1454d0cc86eb41df1224d9869700ede7836475611eb1f06a0360702d1e4;
 0xbd5835813addfdd7fe52f4c8a3b10b157ca63073ee2782f74f43506ab58fc52;
 0x20944de1bfc17ba91e7a4e57eaccb12a864f0f03f4979bb4a31a84425cc4c0e6;
 0x21787b54ce543e9a71d11be03e1ee3ac9ccdd6221f43ae0d261624adc2bd982e;
 0x225e74a0bc023c80bb25adf111d52ab833ea4e46967281064061ede0f3d70e3a;
 0x19f618947300b561dc3d46a3cd62a9d25f7e9b33f301387d81ab1209feb0a541;
 0x233a46287d519ac568adf99bb8694707775b999a6d0a3abca8d6ca64e0184841;
 0x18d0dbaaa98db673b472c8ad11b490fac76f62089e10dec1e25386e3d04dcff3;
 0x177aa6be86454adb4e45f649672423189eaedf3443933ca5d8cf2da4bc086fe5;
 0x1a02810ac6a7679e40266f2ba978c62785fb467b84fb15da6b03c428ea1984d;
 0x1ae6c70a5ebf251f5f7e4a1242096a326ef1d5514c38433f0128fdc668357505;
 0x2214ef17acba28a71587476ce775f6ee0d3bd3fa5edade9895bb5e8e5d03558;
 0x176948698048b89edde8c41a02d4198ff463d76881a3789b4b0dbe8837bdd612;
 0x2fa8ea7b2bb13415e41758f04b784973ff08f48be3d5dcff9069f489ded8428f;
 0x144cc7c6ad28fa2e47eb0275a1a4beffea9738cfa8f8e73cc8916349d1e22c6;
 0x14f9aab5c16fb02c9ac8c143a41d7ec1f4968f48ee8df78ffe4f87b79a1f3c5d;
 0x21e7fe0f38fcad374f525a7e5aec05b47a33eee997097d7b674cafc4a06cddc8;
 0x28b0a91e448abe0905876f7c4b7cf7e0d582c3901610d72fa2fd3445339f89bb;
 0x1a16874dc677554af43683ff0af81aea7c37d0c8a7d48026698640f69447f44c;
 0x2422891d43ab71f8730f1c1447320e50f935213f5036da1d2ca308b84a594ee7;
 0x1da66525137ce8f72bac9da36ae4f666c3cb7a3b29dba9d82f7b286b44c32fce;
 0xc4731825357ab15f49be8be8fb61ba4aa49bbc66b9ea889de7433e88c6d549;
 0x3000028c4011daebe4e6f64edb1fd3333638af69d40f0e95f484165868c9bbb7;
 0x29bedc93abb3b62569dafc8b8987f295de2527006fa7d1ed0fd2f1481fd6687a;
 0xcbe74380509c8ac7668895899fc2fb6b7fbf752aa483e1d9dccc25060b960ff;
 0x22b694bc68df2bc4689a4800531bb1c9d8a536287cf1e991a03c0264d009fc25;
 0x2ad8e28c2e4bf73c873ee8463eab2f3baaded932a543d50bb9182f246f394dde;
 0xbbd04b434a55d4c5cdab684fa2b8484f8a1b83a5709985668e2d4e0c739c802;
 0x2bd154a6074a15b651b61dc15a93640a887bd9e11704263464ecb9fec3f0439e;
 0x2d5af17ab25857bdd7604420bd00f1f97232db937789672d2ca927a082046b92;
 0x2f8e794e1b2e961d3b2cc77ceb684ca45338be65dd98f4ccd12e77d34708ea2;
 0x24ea4fbe7f9b9e66c41cc0cb1bb5e2ce337611e360925dd3cc94953432a233ce;
 0xa37dd5bcc98bdfe4fc6d0fd0ec4520c6f449af5a8bbe4f813b5ed5dd544168f;
 0x86a59235fe20dbbe10cc603f69a78b796647cb0af35bc7206c541a48876721a;
 0x2bd74d6c3dc977dc2309a0a7b0c7cdad09d54bb466b2bf0caf198218dfceaf00;
 0x1faf44bd04babf5ab2e71528fdbccd5fd91db2c2001da3f5e76162313608ecac;
 0x26ea7fff86fe56b7712b59e70e502ab9ce09bd8bea98022363816b726f374145;
 0x1db2370b5f14be48485e1bff9033853c99d8073cb18bc9ec0b078c2cd90528ff;
 0x24f5bf757d1a7c28fd53de7c8cabec5cb62e44c373a2a32f378da5aaa07d19eb;
 0xbcbaced9ef9e0b03d3b87eb09c40501052c4bcd5fc32e4b2bf7b75e21148ade;
 0x1ab76daebbedc5f1db440788616187c9fed43b1cb2668e53de5151761b39277b;
 0x249dcd5ba6d7d23473c2a169c76eb581185399f9216aacaddd2463e0519fe6d6;
 0xc5da17200b90a0b125b039ed922b6954d34b979354423743e6016b5bc5d8023;
 0x2df908878c9402fdd0a3014351b0928f1c559790a0d416ad25a2616c1a073cd0;
 0x21ce2e33089951b01af45df3816c80e2048686f1e8014c257c95e2ef3e2753f1;
 0x1bbecb607950c54f74a627369a9f94548867778604dd8de406483e21f61ee1a5;
 0x23c175479965b3b4a9719cfe6be6a610c0c77670e586c2ab0cf083501e69f101;
 0x2f370d158d15b736562d6d0457c44706e671be9aaa524bc6b3bfc34280996100;
 0xef11cbff50df1e1d36be0c8f35588bbbe406bbea31a3bb6e69b7f7c4f4ea1a7;
 0x1f2ff117675d97535c24d19a58baafab0390f3d4114a965c43350c17ce095aef;
 0x14712d01c897590d2eeaab6e98e18e5ac1958692a04c1b5124ee06ae8628cfa2;
 0x268e361752c72a4ad949b2ad1ef9e6f2e806375946b8b9e6336038d4f849c2cd;
 0x11de1fb7c05eb638a4abdb4b4382618529b99978acc73f4e8563c2831cde12b9;
 0xd2a72343a90dbb53290239581b2ff31206a02b9cd98bac6667fd247ad909544;
 0xfc693f9f8f5cb6a1b8be6689dbc03f5031f5df4a30782d8091f738dc7e1e9df;
 0xe41e2a997fa4d0f8b752ecc0dc63b3a121be81ea0e242154dfe67ec049f5704;
 0x87b2ca8d78931f6fde0837ce4fa58944596f3c9cf2adab8eae30b44944e1788;
 0x125d93accf769d4d3514b21d4c663b1539e227e9cbc45964420361d8d220215d;
 0x1f91ac718648cd1fdaf2bf6f11aeeff7bd8206cee5769d8817bb970339e88eb9;
 0x29914ab6cec465fd92f8f2c869e1ce9d4dbb3f883b29685063f339588112659c;
 0x2da4a10486ef6d0effeb26f869bef99f6d50d8feaa1ea1c8bde95989429e5d5;
 0x82557d3f50fa517de2710e0498a683930db5b9fb269e8ab6a42771d5ae7dc33;
 0x1d20832e960f550d7061872f6cd96796f9cf61faf4f807df0c3734a5e839232c;
 0x1b57a822d34e4ad06cec4e19dff3246bf846bc3408036dab02bc2b12ca38e044;
 0xbc798c8dcf79ca9a7c76cb0e8bb7c2366719fe74092e61e6f40e8c4087fc0b5;
 0x1a975b179649b114e3c4559a1b14125e35e3630bf1f8383faf9af282c936700c;
 0xcaae9f4b66b45e4732e97851913a594540730f26529801539c4d44896075fd4;
 0x8e3da8124c621e070e8a41f0ff1f1cf75e2211087955392d85a1723bd2dc41f;
 0x260e3155148f892b7f96b2d74e6c79b9e2c1a3cd9cd0784ae507875e4a267881;
 0x2e3ed8d27ee71bb41e5bc98fb466dd4ff9d0f8a668861b773af825d260ae3943;
 0x21d0fb7ce364e0ac781b1e11d89abfea006392cabd20f0740d156be1e45e7eec;
 0x301a1aacc4f86684e3ed7a0eb023b92cc75af6f8214910f840c627c3da3cd71;
 0x11ee53beb1e8ee4ec10689f4fe40ebd93cd1c9fe06d812e96a583368435ec2b6;
 0x1d42d2dd9d2372530c30f4d6122732d1cef8dea9e2ebfb3b2679e9f0dcd04c9;
 0x861e448b92ffe738e18ae67a143876d55a58c162f74d8e556714d1f7e628792;
 0x193793bfe5c7b90c6d61475e89cf0d41447128f280d8c6c5dd4be1fc9072ef2b;
 0x126b05ee124c85aa2b1c1273c21c3cefe7ded39b305c5e039a35f9024cc1256;
 0x569dcc226c2e215ae697b8c6001011cbae7ce535f45a803dc60fde9da50c83a;
 0xfe6172dd5afe8ff0e7e33f6499916fd4c5ff2fab969637ae32d8e4cfd3fefd4;
 0x74ff2c5f008060e89d30965591260679cd3f0f5aed33162ac9ac99da10bab53;
 0x86e65444d5366d82133d8cad0a61c20066b89be1c870dcabfe453648d2b6b06;
 0xb9bcbd52b7b899a651a02c326e064ac6a97be7457bbce896e465d73e93afb9a;
 0x269e035c429c4bdaedc393d2a87978a1c2f8ca0b25b085ea44ce5878ec506bb;
 0x9e1b7724583b0e16a79ba7670636f87ea134a19e20dc3ec70c01c7b94664dad;
 0x264ca5651ae7b84f43d8841cfb296bcb5f19fa5a06a2c4d2184b54c3d6370936;
 0x24e4ad8c2f38fffdfb503a4dd50575c5a12426a5346359e3a5654af0188f0aa2;
 0xadfcacef6ab262f8fc9d2f614c0fe4a3273c82a9e7335e5e0e0800d81e87875;
 0x187addb97c4a6437145866cf270df4a57ba705970fe1e0619a0f016933065d2c;
 0x710702df841d4ef5e0cadab7197a9ef19d7524808bba56df845a2e8f141bcaa;
 0x2e0664aabc74b5c54d9d047bf5470e45ebc784026159273f1d2f5e4759c00651;
 0x271cb7aae9142ad71842a770cc65df19d7d102d9235454d7c600a735a1fa4da7;
 0x2ff475f9d52241c2261b9f520d2322f52268d289a028e974742d409fd8bb3b06;
 0x2d3bb2cf8530e698b771ede66578a0149e561b366d502a6e79c23b33c500c2a4;
 0x5c80b5a16b6a59e1e36303a59ba782cd71407f83273f37c19ea54a961e0cad9;
 0x17077cca69eed28f21eeaf0f0048692cd310e6ba87b65b7594de5902a829d7af;
 0x2edbe4d8286962d91cf1a93175f925b174cf53d855928f2f10cf46e7baf1f994;
 0x2f95757a62d1a5289c6a087e5c829e54d5bc2e03082ad8621641d82f5758259a;
 0xc2ca1a4f1682da3f56490d1f154194ebe40ab4419951cbcd508c86005cccfac;
 0x151b559773edbfd4a49a453c1732212955dc9d5ff614e80e75ac63d065dd0ccc;
 0x3043ae0869eb8d13b810178b96eb37caa27a8470777bddab85002384b6e1aa11;
 0x1a843dff9621487d353b70ce04d9ded438f76c5013f4780798063a4df6db7b1;
 0xeef8241527784cbff33f551f6e2e53d16b744589f50508cdaa0842e05eca01d;
 0x1ae85b4527017d45d805a25b139e3f424d3745841cecada4658d97b38cefc4c3;
 0xed437f0f11932bf16b0cd77f4983af1511e57078427feed328780828b8d842c;
 0x17de9a117161bae7f824314ddb7a49d59e2443cd620e0e7af082e7246a725e9c;
 0x12858cea51eeec2e4fba5072a9049318de40ea9a4179fa74c7bfc1e15706801f;
 0x8cf404091f4ee5fdc068ff51a27e79a18f8ae93adda23b412de37eed164fbd5;
 0x7638f755834b05e6dbaf1b992ababe1b575897e776ead3471a4fe68d9e70f7a;
 0x246105558f45479e8cd5497d9240a6dd98d96e8111ed4e6fe8ae481cc221394b;
 0x2994e4de23f47371c68cd1f602e71295a36a365b970704c70b22f8a816850b5f;
 0x22c8d3bfbdf3637a9631e9d1b08506d60fee6945b0038eba8f2da85f10fef0c7;
 0x281c2faf2a2c449bb40a4bc4738ea64efec118d34bdfb38652fc86e55297a33e;
 0x18c045cddaab43389344b4efe95254dce7d25f7d392b05256c2b949e47caa3fd;
 0xf89a7f1ac9fb37b2753c758ad0265c94effe7e7838c5f03696fbe1ea19cd62;
 0x17aaaa6bc71b2d1aa0d884b00934f1283c599011e96efd46d4d602d95d869f8a;
 0x2913457175241255d94f002ec50a51838616f2758d69723a91bf0adc46fad0eb;
 0x12eba34c52c9376522f8008a66608ab4f08401aab85d16364791fdf91ba661fc;
 0x135e9379693f4edbe9fc86844938a52518e89db9fe13e457591328728f15dc08;
 0x2f6bb4e91820b1e1367f83134ed632830307065adf75aeee1666d3a59beaa76a;
 0x13543a98e58b1b6df98247f452e000fe071ab3fcdb0b3e6b1a919ae352352818;
 0x2fd81f7d844b99ac61e8f093dc65fe0cf45dc2a5cdebe96f00b0f43bd0b7d9ce;
 0x2d5552222ced4e20cc80371a0210411e95180cc4b310eb66209c2a46681a7f07;
 0x23c153388be12196bc1c97d88d9a18dedae099bcb0f1ffa576985379022a1b21;
 0x7f0d269eb34dd69addd5def5902b9a7a96dcd173bfe460828ed398efb3a3afa;
 0xd511691b6ef7b32d6b64bb70e219826d105c0e3dfb905a8b88164b8e33f2ddc;
 0x287dc3609774096d2b9d98c6f2530946900d9dcd05f003de1d2f8b3cb8e7d1ae;
 0x11531b14ddb49b066f1129808f043e3c9d3f32089e3aebcfe29ce49d93d0d759;
 0x270c07fb85871f3017c468b3f4701c42c562bb79a2cb74a1b63f857090933181;
 0x91cfd790d49049722d482129211f0aec3a10af3d1cbaff1acc674f598cfbd2a;
 0x2e1f9b5465ea5e84c8cb259ba5cef63c7f78b04477beaf3b612774add6325cba;
 0x64d5ae70d4b8574ff3077e835fee488017cc317ca8af262163fcf9f134868d8;
 0x18dd9456a767449c657c3d5663eea71e54e5eb5b381d4e0158c71ca0e3a8fb29;
 0x150f8b58e0635bca8e54452f3e31ff5979c2122e2ed6315c75e2e1efbf4d953;
 0x19c1f822135fbb5932baeb862261d37f58613c1ac6ecc6d1a985a546a52e6142;
 0x2ceb2ab2576b2b66de64c9a8c564869f79100a783d4aea41e74f436547cfd630;
 0x289ef304a10023e4f2d4e47caf25766079103e5b7059fadcc41a475937ea47b7;
 0x106455ac17ff5b1625135663f28627d919ebae910c697c940e967e917b66e3a9;
 0x27e194161a1d0de454c9f47a47d86289a1324f3069e346a0a14a291ed1f50f78;
 0x3ea3ace131a580c737ead77275aaab1fbbf35f957ba5ffa40e3190117ffbf19;
 0x108e136f6c0a7016aa3c91140178668f8be92aea8bf22a58a60401bf037f38a6;
 0x1384b56f69cae939300958285cead5cfeb1971f42bb735852d21f3f3ff2e6bd6;
 0x17afc5bcc3ae14f0ddaaa0ad7f068785c2a88672ae2669ca68d553f4b5611da7;
 0x2af2b4d6e48590cb6ab37260cd0628c305e9571a104aafc5a30086ed36eb739e;
 0x4965fc8bb9707daaed207994c88d236a33cc0999c7e116512fc36c3f3c48516;
 0x1aa274f939ae925bdac809179e60547ba9176d0cc4d3b66ec61ea59146278704;
 0x2cbcff5d0b52769ee0fecfcef4cdd995e66417094e84c9479856780fb1d940e;
 0x2513f2ad59b991b9015b8748901a37026d2e511ecaf12a716643810327bc2349;
 0x23fe312e7bb6a30fed6cd00fa0d98a215e903b45603eec14ff921352d6944da6;
 0xce352c15bb81b39fe0e7263846b9c0bad0f9adb2935c112a4ca4f58c10b4606;
 0x1784a8e161be8cc852574a40c64862adf5ad640468f451ba11de3fdac35ecadd;
 0x148af66b8d3a06d4da4bfd09121cab2045cfa1a96e89ee1e23dc61445366f1cc;
 0xd28295b17753024395c50f80bec66890afbc458866858474f5765cfbe75af54;
 0x9bc568aadf25c9a88404da27c73732817b6aa6c9bfbd4ce851e89aefd1499de;
 0xb0ff5b9694dee9cec669862d49825b8934f73deae404c9e5a601652af8fd4f4;
 0xe7fcee5bc529956fb4d31e98da1376276cae79503906dd5b3f987bf423ec0d6;
 0x57903969900117c287b29cac4b315297d137b29ef2883e39f17edc318529a4a;
 0x1dcd75635c831cf3cf5beaedd5450ed63ffb17dc35db44ebfa02078fc55c36df;
 0xf235e7fc34780e8005c242cc8428764be6e488c8eb8604bdbbd7e0644361701;
 0x1d84ffec4654dde04de9b0a09385d509cc2b2021624a59d274fd0e063b3899d;
 0x802cf3684ec2646c535c018305bc1377b437590aad654951519c539c30d54de].
(* poseidon_bn128_constants.rs:11916-12137 *)
Definition bn_m14 : list (list Z) := [[0xe30a774c353a2cbf244d3d014d1a0e5ff0bac5e242673ae33f1bb2030feff68;
 0x12186bb22000ad84b6bf29179ade2d4e7e94ff07e51627e09580571061fa8ce8;
 0x2399faa648aedf9024c6ac3ceafea248216e24a9e56caf5acd29ce2546a9f6b2;
 0x3add29fe398ed2d44f233125ecd1509e3cede77e6be08b94af4fec87eb3e48e;
 0x121af61f4dc5bb24890abeb9251e5cea94770ab062dc0c28bb8995dd8f183635;
 0x2ca8ffee2d58f2945297b00cd0b511da167080d53949b3f1fceaca9616b6143d;
 0x2c99ef5e064147da9782b914a294b6c14d21ea7eec1f72e8761671069d82a134;
 0xd7d07cd3798f44d832a6571c21706758693e5e93684ce2d1a5e8a53e0cc6709;
 0x29195117106623ffffb0af525c838686d0d97259fc73a5194609ac7b7b171313;
 0x1b62d4b17de67375b58f248a88dbf707cc9d1491bce0095644ca0219a01e40a;
 0x2e1681bc7c22d24c433f81dd3a326fd0242bfc7e2bdeb6307e4d2aca32adda1d;
 0x65850d11d0eca87c3697b6f5e57f78ca86952bad1c9047dbd2eb6be9e9db30;
 0x1a59b36b94f9d723577e504d600c493f2810f0e67112672c743abbb13abf43b8;
 0x1a4b186b77cd53f961c8ccb7815d9781cef7a52af64d0bf746cb522512d3d0af];
 [0x12826e5b9be1c9b85f7c98aaca9ce28a870687d3628d60def0ab3072b57b09b8;
 0x237e39980f9007bbf8699dbece054fea1f19766be6101885d421fa3ea46b5348;
 0x540f5492497595e13080f02f6b1e653e2e51895160ffd5ca14d26aed93b8672;
 0x12bbfbb110ec2971007ddac5f8e36f655465d05f2462996b2114efacac70afb5;
 0x2f2ec51c48f8b73c51b264a70d2ba0b46bdb43f933de0faea8a7da2a97cb41f3;
 0x26e36544d0b5952dde4007d11818465bde91c4dce65abc015e7556ba58b95ffa;
 0x226bf94b86b177cfe7f03103d59e3f9ce2393821954708e7c723f8104a68c664;
 0x25e311b37cee693545e2c2efc2043bc073552115b3a065cef13d36547b6b9dc5;
 0xf2336e0eee4685741ca23828c34c24f073491f0e72c139610524a56f71aa405;
 0xd9bb7dab4a189a3b6990a5526c82b0ae50ba7dd558f951bb9fd343cbb4b0e19;
 0x2a4a6cc884cfd08af4b0dbe89b6d8e0e58113207aded8cbab2d075053efe998c;
 0x1eb97819b3531ebb640ed6b42134335419101d1db60dd1a924ef9665f7a91af5;
 0x226b91e352c65de4fcee112445bff20e4a67af0e110957319b2860d5087406bb;
 0xac5b86128ee47944c12af531cf1458042c35adfcd9e5b6a7531973714559de7];
 [0x22fea1297a4a5f08904d555c2e15d016102a4ed29c32b4bb10809ef14af42c77;
 0x1808cbe7ddf2a3684d8a164fe2d150df62206f6be33d577dc5798f193aeed7a1;
 0x1c1ccb44ff8ab6da854e9271f4bef26d2ac26cd7441f1b69d16eee0d7a7b481b;
 0x1b8d209d66b2c1acbaba435e304ae20662d336d10330beb3355cf801f194733f;
 0x11738ced3933c4b27de13911db71ccd58b7b31344ed9153dbddddb91fbdbceab;
 0x1e97ce013afaa6e9c993e9cfdc9aaec91b06787819830985a72e9f7c6e516ab7;
 0x66ab8beadae7bebd26a33adbd6bb392d6825da37a679e8af9ae8bc4813c3168;
 0x21b37be521835c32b673a31d71aed1bc7f3ea96fe1d4c23f14623a0a851a3cd8;
 0x1e86ec086805bc7712b7510def651249ba1d491076241d99d00c692880f39a75;
 0x75d1aa6cd2b8d181c9e0f42275c9884ae6fa09186fe227e5c4673e56e3acd28;
 0x142a83206747200fdb02773e766f504c65af82b200c0e7fd942f92be23d586be;
 0xee4683c8da536b6b50773a469bbbde2e417a1cf9be221520af1e755968d7ff6;
 0x168e771e9f8f860c49367ef919a00d4f128bab01c13d7dd72ce8d36bc6d1d835;
 0xc2a439067121449c1ef3dba6be1ff84f6ab7fac4bbd54ad7539e61826ca1971];
 [0x24cc6751894087b831598b5bc7f9db3cbb48ce294d9208e1aa436cb5fa2e80e1;
 0x33cccef05b0bcf7b77aa5560a0f949c90be5cc2c57122f9885d24a117c63f98;
 0xe8efc85cfebde295ce589de60aec0db43c81f4be7da44eb26fa4b71f7cb7ee9;
 0xa9d7ee7ee91677affd3ca4fc674625be897df79f82ec438e80f1e000c8b1f70;
 0x9175b1fafacdc0e62b5f95e6ca67c3ffc96a26e37cfc734795b92f1e46124d4;
 0x3016b074c814225e2d5c1091a8303eee4be476b1458ad54c16b4e1691f6b4724;
 0xc099861545e013a687cdd49a3a296a8d2c2e99691c2535da712d351d5e63c10;
 0xb71a06bb75b0a10bfd28a3788bf54a8a144b3287df9c591a2643c4100fe388f;
 0x14937879c4c7127644c765b6362f8b98cfd32f8572d7aad9cc329bed5b507a69;
 0x28f9e0058ebcf1591bc007cb02ac3acde0851427db20c7358dbef9fa9c57c2ba;
 0xdf653524fff92dde8ec1c9a51c1bec30bf36a4f01e9b3b62eb13f8ffdf7b8bf;
 0x2dfcfb280a3d372dbc15639eace45c0bac562c44e292f1429bc916578fb0bfd;
 0xb345890b33c23d167396c583d12e4f3d9efc904f261202512350190ab1961c5;
 0x4f7f1fafee121bb811344f73f54f4a3583076739dd9dfc462b3ae6343c93cb0];
 [0x2cc3d0503a0e1da952b081ba5dc5b117e646bed572a645266c6ec3ce0a1474b9;
 0x2854c82b4b5f5df6dd3872e3f371372de0d12e16e9108766920b5458105e76bd;
 0xb1d810fcc721551e2a596e9009367fc6a924857ab29b703207b08c95ecd001d;
 0xb6eb2254edfae1d7503c3518e64cf19f3443d6cd03b71cfbf1be5936da4e046;
 0x210a4a80e6eaa799f7ce05752bbda4d4ff0520742c943e1efeeb12a91229a5af;
 0x1c1b2cf11f0d3a3a121be7d0ddfb24dc71f54b9bef943aee32963966922a8399;
 0x1574c9e5caaa8a6a7fb4894d2c45d1901d1c42b3214fe9a72fd3cc668e399f76;
 0x26ed5fff06ef9e1942bd3d0d3ba6848e47ec045cd26f93049d80cbfa6bcc73b0;
 0x59de873c59806f55114bc3f8309f9b64cfcba7434aae220447ea0e9c4a66da2;
 0x17e39ccba3432a135c0075d720c649562ee4d31b6da2e9c90bd72a039765e73;
 0x2ae7f1414f1443735318163e1bfb1e1bcf5c271f37f6abf1aa86766b2e59e049;
 0x12ea921acf5b8adc6a4e36be85713576d658099230b0b1766c666f12d92ab142;
 0x1815d4c2e6a18f4f3fa538a004146d7f540fbe80a4605857714fba2795615df9;
 0x18f6c40e3ccf885804b374433af0a962b2963fb9aa01e8bae8cc834b3e17a31d];
 [0x11eedbe5a5969f33446503494b469a2b83f88d3aa477e5d6d7963a8333a61315;
 0x9b63c75dfcab572d280b057fbc3640d35dd5f16244863ab8a31e0956da8802;
 0x9fcacc3998065124de01bf7c0c8ba26ac4241f1f7deca1eefe5ef3d5015e3ad;
 0x1a9ab3fc2059b0cff7e3cc431f7db45f59d8f7f724cd10a03f31a36638f8b52;
 0x19bafd0d7942b839f36ad3d70d9c87b55674b9bdee02a7dc30e4f99ebcc1d94f;
 0xc474824afd2a880c6a85a7b7a5a434ac422c7a63aaf8ddc7c4d9325edef40e;
 0x3a65a91d35b6e877908d5c419e7850f645f62b1c913765a214bb0f7a2915b49;
 0x137908baac2e35e13f86834abfe98d1b54b7c25d6c85fc6c05ec7cded9175517;
 0x1662f26cf04f5b969cdd6b93e890ef2b5b1124f51822888dc2167bbecf7c31e7;
 0xcd0a4c27de11aeb6460e32fa2bcb289cb83321723155304929eb0ca4eea03c9;
 0x2030b7bc2a70905d031674efb420336fabb0769ac0125c35dfe2ff372c1aa4eb;
 0xb5342503af446ef824df4df6a088195fb67276657d420e6f312b2628e922986;
 0x282a555f9ad4fb57698faa1fc3279bb8c28c1f8dc8c693225bd8520db4313489;
 0x174c1a1095e95d4f098c8d60826776c2f73691db37ec3b937835b65b01ba13d6];
 [0x189ae9e9b162ab1a19d599cedcef428bd1325c78740aaad6715b710bfac4c1e6;
 0x28fd36f1c761ea7bce29e6f00067fa40b32e6b318f506b6c94bb847bf72b5b52;
 0x5d2f0a3c223122ac01214250320b52ff5a3d242118e19778b2c8cd1a976c611;
 0x23fba23ab4bc24d4880ba5a6ffd6eb5050dfb8d0f56476d3a30290eda372ac4;
 0x26b8eab0dd0d95b7a8439e0ff7d3438a73a27b5993d81fcece729a824a3521b1;
 0x19775ec781fd4089859f6b7f127c91eb83eeb7ec9eade14677b0a6b10b9e6e24;
 0xc073eaddb5d3f79e5bf83bac00f37700bd64502d8bf7d5a099fb3eff7d3b03f;
 0x143991e8386d62334ca0d87832a0845b48416ef5158c18e7b9db8cd6aee223aa;
 0x5fb897d71edd8d8eb1f3b5c823a5882a06d964056afd532e6c88893a25f2615;
 0x2745a059d0962f1bf0dde1e1b97e0bbf4c4143d10fd3fdeb8d2b295ee4d7a9dd;
 0x12a710de6d17f91af890102226853bb64209f1b41331a1d17305bf5b7b52172d;
 0x9265fb314a676b6b3f827f07283a1ed4f300e8d90f967b20ff61f455d2ab2fe;
 0x148ab15972a6925b714602710fe9e64c0a015053acb838d0e876a46cb5653f59;
 0x1f7f9704cab1cfea2b2471d579ef99d193b234af90e62ca09b5a671c2428a515];
 [0x1aad11449d6e2c6e1adcf9e89114c336c0145528f356ac049f52fd8cb084370a;
 0x2b56c2e44f703a3b143da03c25749367f752b16817257e6d123b10bc85543432;
 0xc7513f762b64022a151d62302099dffd51791d9afd3dcf96cbfcf6035a2c27c;
 0xb26700fd4e950c25ad78fedb63fcb0d9ba73ecab858c071664866a9096f14d5;
 0x173985fe17f3b0fb85de6104c02b46c3d79eee9dc28b567f02ab1a1c0ddec576;
 0x20a9a6284cfc4381795e3b06837e9596815fd5b6f162bde02f97db687c8479fd;
 0x217aa400b2b625bc36432a545e533124f99c1cb98eb85df747319e85d530470a;
 0x148dc9335f621fff9c8d2fa72a9cf5b6febabe1f5ce77689c1a29e393185fba3;
 0xecfacaad0c147e0b3c7e049771e6d4072b02ee4d171c0e53224214d17ade351;
 0x1365a904c7f6721002dbce17077a89a92bb8038bd27af53333f447c4cf035a80;
 0x1fba713b98742311dfb3fa356ff83eef234ce8bf2b0d4a52de7af4d2519f2f12;
 0xab913f65e1ceb39ed8b83bd5d7fd900e78511edabcfe62314dd10d567858d8e;
 0x8e13c2e61c446b53024d2116ab176c843600d00e676402c4641745158c243f8;
 0x1fa02616024cd9bedf643ea36d262d1b24f38a557a77a82c686618c3c33edf9];
 [0xd7e1eae2cfec406402d34c259e5966f6e2eb261d4f08e29088325a6bb669a63;
 0x184e5824689e4f81438567df435f39e1d35a819041d7eaf3af908429beb2bc2f;
 0x18fde6451062016edeaa32e40a8fc30751e17e9bac192f8ca891c11f39ebff81;
 0x4a572b86105dba5253d7ed1e76d35a126e6718551b976b208f593f08158dea9;
 0x1d948e8774b180fa5e1a3932439dfe8c5f32a437657d21277e42614b4c9a3dc3;
 0x20441aa5f4d5638e64d7ad9982b1bfcfde158f6a3cd6af62941e05cc8e533151;
 0x178a58ff122d168cd4ff11a47280a4b8e5cdb313411b6f6e9a947c7fb577a51f;
 0x256e145378d2604db8c509dda4552452b6c4a891fac5da199c7560768d948836;
 0x25f64d42a750971afcb8023070f6ec97bb2362b196a5aae2af6a70f2e7b357af;
 0x2f812121e2eaccc7d51bf266398d5ba8f601a2aa6d335eb69f7864642177667;
 0xc8f8722892a2f06c5ab454e407bd557e9c2ea77ef807ee0e3d89c6785b0d33;
 0x407d585a6a7efb561377e5f3972319a3e7285e146c5499ef6c8504a3d0b62e3;
 0x11cb83e01ff5803b049a2b59ae9915b3e0045e1db694a6df9de9c4e7152d191d;
 0x2e1c292e06b7f8a6e4344f10540675a63ca49e452f69565fcfbcd43bac0f3af4];
 [0x796a23ad6ed2ac995104a0d3e6c75e977ce29aba1d25e62a9a8a20364ea1be0;
 0x1004c5ecbab6b7d12f6bb4caeab33dd56c1f829ee28f47c29fbfbb147e884654;
 0x77559473737549dfb2016dfa72558bb2c1c816d7318763a5e4fd516b04914e8;
 0x1bcbe67ed5fb7522adeafd1d9a150f8d57ada218db346915c86e6c00c00e38b8;
 0x1b61a03e218362204fd20b67536e5e6ca7b96dbb53d53ed1602302988614876f;
 0x2d3d269ee324e7c43c11aa84cd15bad65444ef8369df15749a8a6b2c8121e2b9;
 0xea45d22479ef5773e58b0fe740868fc1e8b50bff76049d5b6ed5e723711867b;
 0x2280250e212be2a48d293796a88ac62b05411012f46a66f87a0220a3dff3f79d;
 0x20be703f86d7c0b9dad98ff8bb9fc92fe8ac0a84c6897a75d851146f74840b71;
 0x21f8d854091ddb601dab1b01fb30c3d4f77cc3167fa3332c3b32377a07e6aac8;
 0xdbd093dc16e73832bde62d05cbb06f8271fa47229470462d8c18cf8a124f9eb;
 0x2ff5bbbc022d1b74fe184c064e58d967f1aad1f0926c906a5e356cfc3b81ad24;
 0x119816862c8226e9e5dfabf3167b3b2bf7fb3d19063989b24a16d97c94bd53d7;
 0x6fbced52576a913e6cdc5c5c96fdc8f9f4e931fa90beeb46d9b3c2d775e1e36];
 [0x299b8e8621d7d8c8d3d6286cb126b34ee53b2dc9a3697b8380c6e47f5711345c;
 0xa973a665693ed09434edb2cb0a971ad277a82b3385788552349ae09e8bd0c85;
 0x2de9ee6529e5abc7aee93b794c4eefdd517c4fe12fa56bce06a3708d86336bbe;
 0x2ea6b7a7265c503fcb284c2bb19512dae71ef357125c3ac755c6bc6cc37bdb66;
 0x1380beac7b062c6b89914a976a8d0b9d3276a13c82c23fa21f4fa4403e3267cd;
 0x1a5718f4a92dd8d179b932b0820f65c7bb93eabce398f997324f98ac76323b92;
 0x1c7cbf2448de7114eed701b041809034e07b946a0340b777268529d582c225aa;
 0x9c89e06cad5430153dd52cc66ae4f521bf4145df048681beb2e06a385050117;
 0x296f3a9c104222692a44ad24f0f6fd8190027e0755567e9a7009ec71ef440ea0;
 0x18393505ea6230669a8030f6e76130a14c1070a901ba5b640b88ae80d7d30b5;
 0x1dca3060a6bbc4c324f7efba22274fd8d1f2560a4eeba8c8b0d38997e0d9c46b;
 0x6da6d88c233e3182c5fa5ccda1392c0f89f7c6bec4e60da8df8054807eb0922;
 0xc61ec79b106e9dc6494a6359f175ff637839ca53ac8e7a13471c56646180390;
 0x2cec67e62320bc6a0ca32518ec81c74363a4b6d259bd275a63425d6cede468d8];
 [0x20f11ee81d2ac9a9ed1cac61d9cfdf10bf1b49cdfbb6d232872a1df1427c1839;
 0x125478c8973bc395b648c822091f8df469504a71ca4fdf1dab59a708d0fe4719;
 0x12b591b7af35ffd997b3a613687e449225625dd5d101cef2d6f2af02d9dbd6d7;
 0x30544eda9c322c6c872671d667fc5fcf09cfb8d34e8e5812b6e738e7ab40d8ef;
 0x2110c105efb481b679ceb2f112d6ea704442763ae2ac65edf8f15cfd169c560d;
 0x8fd4397aa8b3a84dd1ba4e2d0eb7c6d1c5eda1f764814b5ffe204c8ec735606;
 0x2487df9d5e066b76ffcb2f0ca190abf5fc1e5872c4b6a36a46870e9159201010;
 0xaad68c20fade1e3e2bf70fcef4b550ba00d6399e20d83402fe09b52ddcdf527;
 0x6301679b6cdb17aa6c212ce342ecf681ab7cd96bf0bfb93350368004d97c353;
 0x1e151fedfea11659c189a31ba27f2ccf6956084188eb2c4c99b827f645f1db61;
 0x291bd9401de20916b9002a0066114b3bfae4d3c8308aba4afdccdf0aec12d66a;
 0xaab27e6279952c7291f036918f0b279d3b1d9f8e4e8ac380da77ec2fc24ea0;
 0x1e8ee641308ba6fe5600b2df492cf2f14f9892ba1025826c53c77aeb7bcdb04b;
 0x276e2623828949e6a2fdc917e2ed45dce0ee503cdaffc9add815f6d1d3c4f9d5];
 [0xa403e979943b8d2f947f6eda6d41170881341bb5e4fbbb3b4fe3dd7dccdd777;
 0x2b0696d45980020a2a421073440e3a4fd39edc5288e6900a5958e0cd81e0eee6;
 0x2f9f88fe9be36457e8a546455aa00a0f5100a7f32580b78f26a77bd0b7612181;
 0x206733e327a64b78d3c48b6f7580d0887c1778343b67768859e2532d7d1c46a7;
 0xc272d10af2ef78a98dff7486c49d7505edd88c922e5672a3abb15cc49f4134;
 0x1a327ff2c46f5969fcacb463506e102d682502381fc3f999b9ffbd4520ba4695;
 0x2c0cbbe46422917152ca1906462bcb5a13ef536322a8715237da09b8c594cac5;
 0x25f4103521e36d55e418162ef8ebfec6d45695520ef47b8548ba38b52a27fbf5;
 0x7940eb04b61ec5341c1702f03993faed167db6fa2cea92290cd821b15fe4c2;
 0x2ae1ec9e09577c82c97b4b09142ace51aaad1df7dc352cd4e5813d8cee9c98db;
 0x1c97fc775f962fe05a7b66346b93c3260c8f6a90a7f5c63223a3386e19852ead;
 0x27737fcd76dd296c28817646d30b1168c4d00e1f764c4565caa3276defd15c7e;
 0x16b61b242d41e1975843309a01a36a14397d7c8e7beb4afbd9233b453aaccdba;
 0xc75ba60f8e0f6afa126e75703b83d9908116147b8b2db45ef24f3156b8f1855];
 [0x4646253380f4bf642972ae81977779454aa0833fda36b1822cb9c09719e3dd1;
 0x264625c74f2a3bbbdc19481b7866757e639c124b4eb560da531fcef99773903;
 0x9714e717daa3ceb3e9794d24abcd172831cba18066c4c048b0995e9e6df1dec;
 0x14dac9059c9e78d96c7ef807ba342b946870679782231d2af0f6e4ab76cbd101;
 0x129dd677c1f8aa2d36d2a7d5340645dfac34a64ae456f91b97de9f8e91313615;
 0x10879ceabc3ad045d76f6cd5b26b56dc47b512d6509458f9ffde8da79e6649cd;
 0xf7c3f3cc96ceda039e43c86c1b680c77d6f49f50e94de23e4db42f8e9caf7d3;
 0x10bd7824fc1b883b3da0072d2c6194c4a1e5957156594e908adbf6e6b1912b9b;
 0x90da12e1595551d2500f90310b7701df97676404113c33e475b2e7749adb613;
 0x24ceb0766de25fc22789286a09287be740310c41747320bdf2eb5c956e040356;
 0x1c7dcecea59e6f7beb6d702e2fe74588415d30e5dc09970bb2d56acc8e08328f;
 0x110a5e84de09209e9363c03c22b537ac6a7aaba2f6a9d1a1f6bfab71a960a583;
 0x13822dcc3f6271b71549c2cd917b859cdac36af6848804d15a354d4de0f67ef9;
 0x85e380905eb2cb7e753d0ab0ff4918b232c734418b6bfe1331de492fc76b21c]].
(* poseidon_bn128_constants_opt.rs:1484-1665 *)
Definition bn_C14 : list Z := [0x304c29aeb6f1873847879576d30f1f6e8a3ce41082c15c7632df920d6db5164d;
 0x2b7380d8b25bca649b3f8bbd0a86ae417109069be27066f46fdd1c7c87d4c40c;
 0x4c77200e5494b1cb8a3d334f69ae5bafa7e8775ba1924e563efe591eff302f7;
 0x6c0b8966df93080c3ac1576486e61ab0d027637aac41bb35e482bfa10e34fc5;
 0x24c73f425903904f40dbff590225f251ce1980a5a5ce2d07ae436e1d090778d7;
 0x23df6f6f4448273c745ce53d5d7abb5d26c46724a58d68844d3c3ee45e9b924b;
 0x1dc1b1ac389280188e937566071b84bf8189b955d0579b6de5ea8a5136bc2ee9;
 0x27f71c5ca774ce20028b8140f144472043917cd4919cff64d848a745bd569180;
 0x22b2ee53b302ba2e836b98783e15eb6de9d15a72cc7caa374e61b51dd0d2e2c7;
 0x254d85065f87271e86d7b411d6acc280f9ed257c098c9fdb04a2ca4df7c7d766;
 0x28620793f378bfe881e098bd2ec62beb46899f37a54abd053cfb0b3bb8d5e754;
 0x2c19f26d0836635b04f38fa30ee5c648fa0ea1b202eb0846821acd3c699cf061;
 0xf9ed87e9a1ba7ee7c28bfd7ac38ff3ba10849fb04d3322898ba9fe0104fb445;
 0xd1deff42263b7cae8a123a1641b7258015476161ab881e1dc20e165b3f04579;
 0x1ad882b228b5f22b9f6a02e10ba09049c9281b32ad71818502b66ac77ee3ac6;
 0x1822ba8c558e0e6bd0efd1ab4b45129879e43b7a6acf07579b1e6343c531a248;
 0x192c005d746c0d045f5530f10f38a29b50cb6c86039410e634d25a809203f492;
 0x2e9e6de4e745193d2eb8b89b5b573eddf8a6506746afb98a2db858134acd808d;
 0x13373a062c71d0754ee8b1872dd2861bd4c2545e807dddc654d68af43ae87f0;
 0x130c94f39a9a07d71dac7df61fb56cb975c9092ac2ab73b113b341e8198eab08;
 0x1934eeb7210877c3c2e07d9ace7b72ab4d659bb1431f8e8ae79a1a5e8daff5ee;
 0x22547365b9069f419ae8b9370816f030a387cf0ce6b88fdc54fce91c485dcdf1;
 0x108b2099b7264eec50ebab5ccd3558a359e34fca1cfb69df4e3f8c9da9faaa73;
 0x22b946f1886cee07fb01b7f8e3bc585ea8f9a7fcdb2aaec5faa878f378eb200e;
 0x229337b2b316c279097644d8fa861e5e5c07377cbe3ba168b55613542874681;
 0xe9283cb85fa800120344cab9a7f792e975f5c25d64f5cb6a521b62665af7451;
 0x112956bf9c763ec101af9a335159df07d1b0bd90bc84be291aff9a85f30f5163;
 0x26f27df4fdaf33f3d12d5948690653ad1ee625cb00aef92b73527d37365c4726;
 0x2ed4c4b73e2547622bb78403cd983c6f1d33b25534127e98a7472897a84e4b3a;
 0x9f0108ead7dd31504de2b846076a8019827086a0c4dd6570c1b7423ca05b0cd;
 0x1172c6ec16cc502fbc633f8a4c308b14551d2c4822b5918179946e6545e9de5f;
 0x26488ee5f0d4f8b5766c5b8cbf414970b750e7488aa316976dff5ab72f349f1a;
 0x392aecd00da38bf4e39fb198ef96e70bb8774b8152970dd2e1629b51ff10ae5;
 0x2f6d971cd5f9931144acd9b9e98bad6e1e78d60cbd966fb18e6f630a76dfa6b6;
 0x5a795d1230d3c781b9717735bf45464f36c41df07376364986d0fd12c8317cc;
 0x1e238a362ffe560b31e3b050539e6c8fe0da221fba18b12ad661945e22e5f5b9;
 0x35fbe3e0d9d9276c990a3b1719e27550545a077f6215eacb2479af1b3686364;
 0x7ed14110e9abeb3520e14682efad791ad5c2feb51d558ed013675289b1c6bdc;
 0x11dad822671724ee6a786e210e9536e0ada0796d4aa0fced69c1d411e11e0c06;
 0x110b32907aac869005443ad66a33ce28508c925f505e44a34b53f70a3aa45385;
 0x55a8f4be4acd26e362a4dbadf39c198b43ea025ec429df6b2011177dd8e6cfa;
 0x1bce99ccd0f37478be3ecc5b67ec7c0a84b03f7231630dffa5e16ce6f90d6bae;
 0x1d61595a714a5f1b32a5255dd5522d633a0ebf7fdf82a9cfb22271cc962c801f;
 0xde4fba8ef10768324aa1e91e606f2a3c3f3f6a29dc8d31bf7a670d31695bf02;
 0xeeaf11740f270654239779cb83a05182d0c98f3d4bb8a7a118ce4c0de477e3d;
 0x25c397489e65820a955d6284c002427a1784233faa7089c6677f103d2fafdb7c;
 0xeb3a160356c8929495bd9f58d3a8657f69f3eecab1517123e724a946dc50c4;
 0x19122ffd9b6430a6f6c81cac0bfc8b488e1a28758e9407fdef8f77aa1fe4c0ee;
 0x770ca4c67aa40a1659365097ddb70eeed6d6230739265f76786cbea0899e823;
 0x20cf3df7dbbf47bb220ccaf0ecd8f3d54e0575628a7291a72cf8db5e42e1498b;
 0x21fe2c9c9625d66a931fa931bf7fbea6c2808ffd7d07fd3bde15775957c62768;
 0x2ad158bb675ff14b1dcddc993d9d60a5b4e9f3648afbdb5bebb2cd9a98ccb881;
 0xf89c7c34499d981c6cc376c6fbeafc88b7ddf87515dfec65da9bbcdcd68eaef;
 0xd6f33ac650e35d3d642aa3fd35912fdfe5014b86cd11e8a8321794b9a9c2992;
 0x9cdcd7858f273636fc033c778e5f588b9fe6315476254f17aa602c20065caac;
 0x2bc68e029d800355300648a36fd8a24157750a0d6fb2f2303906451f3b3d9820;
 0x163f8a2427805d02620c54bc1d32186ee3d07dac41d9289e9aa3dd2cad337601;
 0x2b72cb042e079dee8d56b1762d0052790105395fa0299e79cc72f4c27bfa20f4;
 0x1aa578a5ee2c66ab8299fe99133089e90676c4a2e6d56cb9da0679fff6cbdcfd;
 0x262d1529ab1e7f58925030e6caf0e79a14c436e5926e33cd79d321388b966dfa;
 0x1aa6b71c17be336b1b1cf2384d6d3ee0a7ece1ad2003ca727f636bd4b70617a5;
 0x286a8a2c71f53994524a189eb5bf41eed57904d91f44eee40976778362547af3;
 0x37ade52ed2960d80bc2d92b815a5315883cd42d26709ae64a822ff92ff373e4;
 0xd641f097ab6260b2dc240a85b7799541f6e73a3a25649ce98b4b64a6c499dcd;
 0x1176510cc674b0f0caab00f4e9be1f8c6efbac7b7315ff6d4169184b8ef009bb;
 0x29b6783918f37a8015d122ab39713848ca84008abaa716882b0492c6ccd15642;
 0x28a8be58f110dd8c2b90428fb4feb59b67eff815e928fb7d75747d35cbc40ebd;
 0x183f2632e3ca6ec2377e8358c3205d23f9211b759f62fcabc5fb2314d0728a9a;
 0x6aeb9e100b47eacc2dacdeca2ea990f7066a79e2c7c83f2490bdab3eb43620a;
 0x212949467cdd807e8f3576d403fef09e9bb63ca3754897541c6cd77de4ceedae;
 0x1858f747bddf594d663ca49fd2aab93402ff9d186cb230a025d53b8d4c626e70;
 0x19a293adeb09485ccc03800b821707060dc27e8663e355e908e368e2e8bc0150;
 0x1d4241ed038279263a184eb3aab7f2e14326b7faf040a48628ce8a38c7b0abf8;
 0x1692838188071f73ff82734223e5999c726b055dd19bb5a68e513d57055d8bbf;
 0x81d819dda57265e88fb9eb5f7454ae7dcde39a14b00f45cdb19406e8bf24efb;
 0x1fa7ad5a2bc799dfa38a9c581b0d17990d1f53a145e26e7b10a0901a9dfbe8aa;
 0x140107d97554b55ec285011aa53f372689e16d68abd763cdffabf8718bcc77d7;
 0x1aa6e52c05aa7d40dce61bc38b038a69bb36490d2014dacf4fa46e71be012ad6;
 0x233c7ba71f9e0ca09ec20277fe09a96399a1474e4dca5158e97536892de72b56;
 0x223709deb8827076f29c20778d24a2006fab590092c7bb34f212c331b4b1b932;
 0x14187c4e94d059b6565591e16dfe2cea40731d582c1487e3efbe1cf305a9b459;
 0x12d57f9c3775b0509f5c95f1cc2e17f1264a5121afa6355611de2a71ee23d803;
 0x23ba06ba8305823e5e62cac1ed25888b6234f13294c93e1d36d5f2f73c8b613e;
 0x9018322b8f274623a4ef0562223a166c0fca597d4527ae8fbcdf297c8f6d1c7;
 0x1a8d0fc5616edc0238e5287d9fb6869468a83ac168452c5cf3f9a4063452f22;
 0x2b1a8db9aa3b060be428900b352808a1821e9c9f34f8c8e75b172def7f0b3d07;
 0x14e78cb6524a7125d7718d49dd76525f58cf2739ab9cbb0d408dcf2e12f604d0;
 0x1208b734f978bdae45714bfb76d3fa83c558d0976e9c9a1fa93a1fa69f7bead;
 0x26cb6b7c1d65f9e5b5235c3f31f9d7ff1d817e4b5b945fac94a99b3cffac3d5a;
 0x11344656431a0d87de96e6806fc0abb9e1514cdf175d617b70008b1cdfa7fb17;
 0x28180778e94d900df231aa7e551f6d7207f3344f5b4164d19ad4627e53aade25;
 0x1497cc0587aa9a662cb2e9bb2ae6bf3e75a0716db37ff072d6c5cce6ffa65277;
 0x1155b889f1798c1b597cdf4ea98b7a22e2291aa2f49d4628179115ad19817a1f;
 0x136bcfc49ef4ecf9c613bfeface129644a00a283c8e9567c0b0149ed7d7e0268;
 0x2c94ea318df6e3131d85a4681682551ce652db2f76ff670212c5375994d2da9b;
 0x11a008577edb87e5285159e1655d70b5f6ad4abbf3f8f19d66ee1a7172623cce;
 0x14262b879f58b553126cc175743b09b5deacf5aed297fe3e4124417ed2016a99;
 0x338d86b8e84fe8bd613d57a3a713ac1e971d52a586e94106b49d7d390c92658;
 0x1ad169875101e162c49ec27ec32be37ae3d379f347930fbb656d718b87c14c36;
 0x1e33654824c915e16fad4a166ee216d1b3a36428d90443dc9131f818df850f6e;
 0x23d15701d8f5da053866a07f4788c49476c5518c8a812295dee3aa1074db6d9d;
 0x2d2fba372de705aa005c21db4d71bba12c9d47dd0161bcd45409c883423948ec;
 0x168371dfb98b380fa2d2630c612f8613042e6df90658c2350b270eece90d67d;
 0x412112ecd0cac61c445ce46a8518b56e0f2baf839488591ead4aaced85fa01f;
 0x23ad0edb1f4fe974eef543fc17fcd7dc1a0f05e2ce5ac18e374c87bc09f75c78;
 0xed6be3eeb0b9147d7c509a9dab4ba2d57c7b9d4b2780fb0515525fea4278eb8;
 0x690d08198823c10f51a7ea3cb473a6d98ed0cff6a17069b50971a68567a7b11;
 0xbf5caee488cee887f67db3206cd5da24ecd1baa6badb44bc761757e2137ce3a;
 0x3dc319068295544dd33221944b9e285f7219f85e8855975c48f69f77edf0a17;
 0x164c0f9fd358e2a011e55931b51e5654352bb6fdc6cb2dfa4d8a75722f2621cc;
 0x7e8978e88b1c0789e9397e09c9eb10e368fce8724ca948f6f2ac92cf230e6ea;
 0x22c5462508c480867b3cd96e18dc3c42ffd90e1586ca41fa67158838cdf1593;
 0x922b97a92d6a11fb18178d05f054345b43db4f5c6b91c73e28f6ce3a22dec5;
 0x17626303d1bda8e47dd6d0da342e4327eae6c4200525217a20f6226cb54bd44e;
 0x16ed2d702c6f848039b31ff87fb1daaf88b23f6b00acd7f6409a7cdef83b5ae3;
 0x1d9552a42def1750b55d27edb09ce26409f8f89050fb74cc53072f788feca6c9;
 0x93f2eac6c08b0a43d4df37c1b20d1965c77103de2e6dd88862f77b322a32dd3;
 0x63648259abf1b9feb8c0b03db31f559e47f0e11de2b371b299043914d0ebda0;
 0xa8db8ae7570818bd9ce7c02dce89712cfc04f800d55f1562eb1ed27da9deaef;
 0x2addd8a7fa94a011e12910a98b2b8ae5387701242ee2281df132f9e9dd3fc7c6;
 0x82532cbc9a72e056668946fab08eac4817547cf26ef3eb8f159e76f9023dea7;
 0x2abcba0aaec141d7742c0f0785daa2726200b6ae69d464e849afd70465c9b557;
 0x113ac02d59778ac96902e3fdd0562c504b418cf8a8e349da7d61450a2fc6d685;
 0x193a7f639d4ce4d62dc7567ee718853f5c5284ba09de428fdf02846ee22331aa;
 0x76d49b5c0dc78dd9c8e7ccc9b5a35df69dce86805aa47fe3f8cf062e47e95cf;
 0x23051faea37aac8e12ae94b87a02411747b14de73751aa1a3f6a07fee98695e4;
 0x2c3a84859c46bedc24120441bb6dfb113c09dc8070b2e0cd139ed49c9647b737;
 0x165df45e8460cb7b423a9468d2935c14c93c33c700c654e32c2e6743de59deb;
 0x243c1dcf2e801df1b53ab72ad31fc24cccb07b2518594c4e5f3024da67121454;
 0x2d4f07748851869bc581212b431c20cb3e268cb7f6aef272deaef66e929bd859;
 0x1445dd9248e8bfa4e6698e7f51553ef1a152d37d88949e15b9c50c3e8074aca7;
 0x3f3128f5fceea223432d31ceae2f8b11b38a15ca9c3fce21cb8756e8e09642;
 0xe574b6201e927e5f369a966151ddfc5c06fad66e64d5e09702ef172b5ade467;
 0x784b51a7ae1076c1737eae2fc4c3bdbc2187b28f714e56cdde0cd322292aa4c;
 0x289012d3d1fb3419e3fa81294f3a64c15685ffaa658927c09c1833ce59ce5ff7;
 0x2bcf3e35ab8919e05d55166908beca23a711c712284c45695c6558e0e3da22f3;
 0x3df5cdc10feafd361d978330cb95515bc2e587e7dbb89da4ecac57461b75b6d;
 0x19dc65b4afbaa8127015b3f68d35b557c8fac9938dee95ae35ea12da61b7dcd0;
 0x1fa279d539fc9bf724da2e7622bc326f9535d00adc596916791d77d03bf016c8;
 0x237dd96ce03469858cabff18944f05521971d1ad373ed6e041987754dbfcec17;
 0x31261638cc3762eb025a716ad3bcf1d6447a080f3ccc60f8117315254f568d4;
 0x24fb403026e10160607af2e0a214aa725637f19af7ed44130a9400365bf61a7;
 0xa773f9bbec6c35b5d7a95005477796366c4f36ca634e94b283233afff57521a;
 0x2ff29b7dd04750f926b880f54acc39f2e828852f40698afac2661b3053278580;
 0x1555a820b4069893e6625d113049c46bc5b4394d627c2668adccd3ac0c6492e8;
 0x2a5d25cf71c81e5b129e7d37a5e2728dad5d99d3109d23a18c4627b4afcf8fd0;
 0xd749c5dedcefb1910ec9450ab388da7aeb25adc78cd029a75bcec29559e8d51;
 0x2134979a55dad645ef838322058e7bc8ede30969481ff2bbe496d8ccd6aa8ca5;
 0x1a5d28f1ec79a8a70d8cfb783cff4c2b96e4ce5beb97665a0f6a52e73a70bb6b;
 0x2248fef1cc977b18bf5051a571374c36cad0b338bae217bcd9cff038fcd7bc57;
 0x1a3105c3234d4afbc112d7a9f38d22206c0a1e77112d6ac26c6d6aa63ef50088;
 0x6ff45e6cf264bdcb9e8b3b4f13a44d1c197ad77ee53d02fabd0c0a78ddf6ae4;
 0x7ea34caf7f9c9734f489953d428cad95bf98cd32d5c18e5b51e01d1444b8f91;
 0xbb9bd4ea562fa887d4e6723a798e7641a08dbb42cd72852b8002a86c57f1f92;
 0xbe1e28fd888e42fad37e72eaf884f6c6c5d037afc0957bc9ebb4893e4ca121d;
 0x1de8955b5f752e29e7e7d92d6345da11bcf32937a8c2abc93c497d1affaed055;
 0x140faed032e51900fe203d8d32fa61d9842d6b7283864ceb9a4d1857d6a9cb5e;
 0x653a45ace7457b472ead1b3438668c57d36faf59e2a19134756356ce5cbe131;
 0x6d23369e024dfc31a1e36cd9114fb7892316dc57da6613ecc41ca0849a1a7e5;
 0x106a234f7e4c5d097cf00f256609b029de983d04044a66023d477897b91adb19;
 0xd5907c353b674540c20db872cd6e0de8bd66f9b3d691396aa06678b5a9b8bd4;
 0x1c8cc4858cdcd5f36aebcebb9cf185feba809a92308ff5f63b66c2b1f52dd14e;
 0x18709a5ed55ee4f8614ff04e503872021e88f83d488d8a0567597b60e8cdb3f7;
 0x20573eb7a426d39fdcd5f46fa19973e6be531160e75ae9401b99ddd7e2ac25c5;
 0x1b68b1cebbf59b96e23aec11f075769b54ac1e7de44ff13708fab5a9bfe17719;
 0x1e74628fd280b451eae0d00add965f95bf19fba43425c3c0589207782f702b7d;
 0x1adf6672bbada9f83494ca2bab97f2e90f630525f9c68338ba4b34ccc484b478;
 0x6ba3daddf68d283a85f65a0ac15913461a7ac09a320e394d09aa5ae97a50db4;
 0x23613483e811cacaf27820d0a9ca552ad22ab29d4f1d579f10bfebd39f14ee66;
 0x5ba1370283ba319cf17f631a9291fce5e0e682ec1d01bd6df2843528e363db7;
 0x130a1c1a83e91a21cb376e0df81b196d8c229ec60df85a30bce4ca8f466fc589;
 0x2ad745158e0bd5aed17084d5fe12d671b0829a83392e6dd0a90a1c0292eca0;
 0x1a4703eca8fec84cd8234d5fc467737761e6d2d6bb6d502a40e25f94044e0aef;
 0x17eeda53608b4be7d2c9b6664dd8fc672bd48641e29f6402bf55443c667bab4a;
 0x1af9e7886090fcbbe73d9b70b729ee9f8a384c4862626ea685673b4837ae2627;
 0x2c300d04412f79e15c95dfd44889ef4a7df828c6b32776db3797c674fccb5fda;
 0xf617c15c41c424a39aa8a1601c5ca44207b3c6e44b003bc13179fa7afb8232a;
 0x280e6721e233a91f7f26004f753a82aa3403fbd9ff420411c058ef275fb54295;
 0x391c3b4c6aad3203ef3e9d7d217d4b77ff1fdd8c63a9fecbe5e702d51c53f23;
 0x203f9c14aedd6319d3ec84ed7517d5fc4703aa085f45f590e86504213b17fb6b;
 0x10842bd57c470e718b75553ddf18278b60594ad3bd7fe120bc46cb0fb450d424;
 0x30250c77a64030f322e0fce46eb9783655a93645784b5219c09eb0ccf3fe88a8].
(* poseidon_bn128_constants_opt.rs:3275-3496 *)
Definition bn_M14 : list (list Z) := [[0xe30a774c353a2cbf244d3d014d1a0e5ff0bac5e242673ae33f1bb2030feff68;
 0x12826e5b9be1c9b85f7c98aaca9ce28a870687d3628d60def0ab3072b57b09b8;
 0x22fea1297a4a5f08904d555c2e15d016102a4ed29c32b4bb10809ef14af42c77;
 0x24cc6751894087b831598b5bc7f9db3cbb48ce294d9208e1aa436cb5fa2e80e1;
 0x2cc3d0503a0e1da952b081ba5dc5b117e646bed572a645266c6ec3ce0a1474b9;
 0x11eedbe5a5969f33446503494b469a2b83f88d3aa477e5d6d7963a8333a61315;
 0x189ae9e9b162ab1a19d599cedcef428bd1325c78740aaad6715b710bfac4c1e6;
 0x1aad11449d6e2c6e1adcf9e89114c336c0145528f356ac049f52fd8cb084370a;
 0xd7e1eae2cfec406402d34c259e5966f6e2eb261d4f08e29088325a6bb669a63;
 0x796a23ad6ed2ac995104a0d3e6c75e977ce29aba1d25e62a9a8a20364ea1be0;
 0x299b8e8621d7d8c8d3d6286cb126b34ee53b2dc9a3697b8380c6e47f5711345c;
 0x20f11ee81d2ac9a9ed1cac61d9cfdf10bf1b49cdfbb6d232872a1df1427c1839;
 0xa403e979943b8d2f947f6eda6d41170881341bb5e4fbbb3b4fe3dd7dccdd777;
 0x4646253380f4bf642972ae81977779454aa0833fda36b1822cb9c09719e3dd1];
 [0x12186bb22000ad84b6bf29179ade2d4e7e94ff07e51627e09580571061fa8ce8;
 0x237e39980f9007bbf8699dbece054fea1f19766be6101885d421fa3ea46b5348;
 0x1808cbe7ddf2a3684d8a164fe2d150df62206f6be33d577dc5798f193aeed7a1;
 0x33cccef05b0bcf7b77aa5560a0f949c90be5cc2c57122f9885d24a117c63f98;
 0x2854c82b4b5f5df6dd3872e3f371372de0d12e16e9108766920b5458105e76bd;
 0x9b63c75dfcab572d280b057fbc3640d35dd5f16244863ab8a31e0956da8802;
 0x28fd36f1c761ea7bce29e6f00067fa40b32e6b318f506b6c94bb847bf72b5b52;
 0x2b56c2e44f703a3b143da03c25749367f752b16817257e6d123b10bc85543432;
 0x184e5824689e4f81438567df435f39e1d35a819041d7eaf3af908429beb2bc2f;
 0x1004c5ecbab6b7d12f6bb4caeab33dd56c1f829ee28f47c29fbfbb147e884654;
 0xa973a665693ed09434edb2cb0a971ad277a82b3385788552349ae09e8bd0c85;
 0x125478c8973bc395b648c822091f8df469504a71ca4fdf1dab59a708d0fe4719;
 0x2b0696d45980020a2a421073440e3a4fd39edc5288e6900a5958e0cd81e0eee6;
 0x264625c74f2a3bbbdc19481b7866757e639c124b4eb560da531fcef99773903];
 [0x2399faa648aedf9024c6ac3ceafea248216e24a9e56caf5acd29ce2546a9f6b2;
 0x540f5492497595e13080f02f6b1e653e2e51895160ffd5ca14d26aed93b8672;
 0x1c1ccb44ff8ab6da854e9271f4bef26d2ac26cd7441f1b69d16eee0d7a7b481b;
 0xe8efc85cfebde295ce589de60aec0db43c81f4be7da44eb26fa4b71f7cb7ee9;
 0xb1d810fcc721551e2a596e9009367fc6a924857ab29b703207b08c95ecd001d;
 0x9fcacc3998065124de01bf7c0c8ba26ac4241f1f7deca1eefe5ef3d5015e3ad;
 0x5d2f0a3c223122ac01214250320b52ff5a3d242118e19778b2c8cd1a976c611;
 0xc7513f762b64022a151d62302099dffd51791d9afd3dcf96cbfcf6035a2c27c;
 0x18fde6451062016edeaa32e40a8fc30751e17e9bac192f8ca891c11f39ebff81;
 0x77559473737549dfb2016dfa72558bb2c1c816d7318763a5e4fd516b04914e8;
 0x2de9ee6529e5abc7aee93b794c4eefdd517c4fe12fa56bce06a3708d86336bbe;
 0x12b591b7af35ffd997b3a613687e449225625dd5d101cef2d6f2af02d9dbd6d7;
 0x2f9f88fe9be36457e8a546455aa00a0f5100a7f32580b78f26a77bd0b7612181;
 0x9714e717daa3ceb3e9794d24abcd172831cba18066c4c048b0995e9e6df1dec];
 [0x3add29fe398ed2d44f233125ecd1509e3cede77e6be08b94af4fec87eb3e48e;
 0x12bbfbb110ec2971007ddac5f8e36f655465d05f2462996b2114efacac70afb5;
 0x1b8d209d66b2c1acbaba435e304ae20662d336d10330beb3355cf801f194733f;
 0xa9d7ee7ee91677affd3ca4fc674625be897df79f82ec438e80f1e000c8b1f70;
 0xb6eb2254edfae1d7503c3518e64cf19f3443d6cd03b71cfbf1be5936da4e046;
 0x1a9ab3fc2059b0cff7e3cc431f7db45f59d8f7f724cd10a03f31a36638f8b52;
 0x23fba23ab4bc24d4880ba5a6ffd6eb5050dfb8d0f56476d3a30290eda372ac4;
 0xb26700fd4e950c25ad78fedb63fcb0d9ba73ecab858c071664866a9096f14d5;
 0x4a572b86105dba5253d7ed1e76d35a126e6718551b976b208f593f08158dea9;
 0x1bcbe67ed5fb7522adeafd1d9a150f8d57ada218db346915c86e6c00c00e38b8;
 0x2ea6b7a7265c503fcb284c2bb19512dae71ef357125c3ac755c6bc6cc37bdb66;
 0x30544eda9c322c6c872671d667fc5fcf09cfb8d34e8e5812b6e738e7ab40d8ef;
 0x206733e327a64b78d3c48b6f7580d0887c1778343b67768859e2532d7d1c46a7;
 0x14dac9059c9e78d96c7ef807ba342b946870679782231d2af0f6e4ab76cbd101];
 [0x121af61f4dc5bb24890abeb9251e5cea94770ab062dc0c28bb8995dd8f183635;
 0x2f2ec51c48f8b73c51b264a70d2ba0b46bdb43f933de0faea8a7da2a97cb41f3;
 0x11738ced3933c4b27de13911db71ccd58b7b31344ed9153dbddddb91fbdbceab;
 0x9175b1fafacdc0e62b5f95e6ca67c3ffc96a26e37cfc734795b92f1e46124d4;
 0x210a4a80e6eaa799f7ce05752bbda4d4ff0520742c943e1efeeb12a91229a5af;
 0x19bafd0d7942b839f36ad3d70d9c87b55674b9bdee02a7dc30e4f99ebcc1d94f;
 0x26b8eab0dd0d95b7a8439e0ff7d3438a73a27b5993d81fcece729a824a3521b1;
 0x173985fe17f3b0fb85de6104c02b46c3d79eee9dc28b567f02ab1a1c0ddec576;
 0x1d948e8774b180fa5e1a3932439dfe8c5f32a437657d21277e42614b4c9a3dc3;
 0x1b61a03e218362204fd20b67536e5e6ca7b96dbb53d53ed1602302988614876f;
 0x1380beac7b062c6b89914a976a8d0b9d3276a13c82c23fa21f4fa4403e3267cd;
 0x2110c105efb481b679ceb2f112d6ea704442763ae2ac65edf8f15cfd169c560d;
 0xc272d10af2ef78a98dff7486c49d7505edd88c922e5672a3abb15cc49f4134;
 0x129dd677c1f8aa2d36d2a7d5340645dfac34a64ae456f91b97de9f8e91313615];
 [0x2ca8ffee2d58f2945297b00cd0b511da167080d53949b3f1fceaca9616b6143d;
 0x26e36544d0b5952dde4007d11818465bde91c4dce65abc015e7556ba58b95ffa;
 0x1e97ce013afaa6e9c993e9cfdc9aaec91b06787819830985a72e9f7c6e516ab7;
 0x3016b074c814225e2d5c1091a8303eee4be476b1458ad54c16b4e1691f6b4724;
 0x1c1b2cf11f0d3a3a121be7d0ddfb24dc71f54b9bef943aee32963966922a8399;
 0xc474824afd2a880c6a85a7b7a5a434ac422c7a63aaf8ddc7c4d9325edef40e;
 0x19775ec781fd4089859f6b7f127c91eb83eeb7ec9eade14677b0a6b10b9e6e24;
 0x20a9a6284cfc4381795e3b06837e9596815fd5b6f162bde02f97db687c8479fd;
 0x20441aa5f4d5638e64d7ad9982b1bfcfde158f6a3cd6af62941e05cc8e533151;
 0x2d3d269ee324e7c43c11aa84cd15bad65444ef8369df15749a8a6b2c8121e2b9;
 0x1a5718f4a92dd8d179b932b0820f65c7bb93eabce398f997324f98ac76323b92;
 0x8fd4397aa8b3a84dd1ba4e2d0eb7c6d1c5eda1f764814b5ffe204c8ec735606;
 0x1a327ff2c46f5969fcacb463506e102d682502381fc3f999b9ffbd4520ba4695;
 0x10879ceabc3ad045d76f6cd5b26b56dc47b512d6509458f9ffde8da79e6649cd];
 [0x2c99ef5e064147da9782b914a294b6c14d21ea7eec1f72e8761671069d82a134;
 0x226bf94b86b177cfe7f03103d59e3f9ce2393821954708e7c723f8104a68c664;
 0x66ab8beadae7bebd26a33adbd6bb392d6825da37a679e8af9ae8bc4813c3168;
 0xc099861545e013a687cdd49a3a296a8d2c2e99691c2535da712d351d5e63c10;
 0x1574c9e5caaa8a6a7fb4894d2c45d1901d1c42b3214fe9a72fd3cc668e399f76;
 0x3a65a91d35b6e877908d5c419e7850f645f62b1c913765a214bb0f7a2915b49;
 0xc073eaddb5d3f79e5bf83bac00f37700bd64502d8bf7d5a099fb3eff7d3b03f;
 0x217aa400b2b625bc36432a545e533124f99c1cb98eb85df747319e85d530470a;
 0x178a58ff122d168cd4ff11a47280a4b8e5cdb313411b6f6e9a947c7fb577a51f;
 0xea45d22479ef5773e58b0fe740868fc1e8b50bff76049d5b6ed5e723711867b;
 0x1c7cbf2448de7114eed701b041809034e07b946a0340b777268529d582c225aa;
 0x2487df9d5e066b76ffcb2f0ca190abf5fc1e5872c4b6a36a46870e9159201010;
 0x2c0cbbe46422917152ca1906462bcb5a13ef536322a8715237da09b8c594cac5;
 0xf7c3f3cc96ceda039e43c86c1b680c77d6f49f50e94de23e4db42f8e9caf7d3];
 [0xd7d07cd3798f44d832a6571c21706758693e5e93684ce2d1a5e8a53e0cc6709;
 0x25e311b37cee693545e2c2efc2043bc073552115b3a065cef13d36547b6b9dc5;
 0x21b37be521835c32b673a31d71aed1bc7f3ea96fe1d4c23f14623a0a851a3cd8;
 0xb71a06bb75b0a10bfd28a3788bf54a8a144b3287df9c591a2643c4100fe388f;
 0x26ed5fff06ef9e1942bd3d0d3ba6848e47ec045cd26f93049d80cbfa6bcc73b0;
 0x137908baac2e35e13f86834abfe98d1b54b7c25d6c85fc6c05ec7cded9175517;
 0x143991e8386d62334ca0d87832a0845b48416ef5158c18e7b9db8cd6aee223aa;
 0x148dc9335f621fff9c8d2fa72a9cf5b6febabe1f5ce77689c1a29e393185fba3;
 0x256e145378d2604db8c509dda4552452b6c4a891fac5da199c7560768d948836;
 0x2280250e212be2a48d293796a88ac62b05411012f46a66f87a0220a3dff3f79d;
 0x9c89e06cad5430153dd52cc66ae4f521bf4145df048681beb2e06a385050117;
 0xaad68c20fade1e3e2bf70fcef4b550ba00d6399e20d83402fe09b52ddcdf527;
 0x25f4103521e36d55e418162ef8ebfec6d45695520ef47b8548ba38b52a27fbf5;
 0x10bd7824fc1b883b3da0072d2c6194c4a1e5957156594e908adbf6e6b1912b9b];
 [0x29195117106623ffffb0af525c838686d0d97259fc73a5194609ac7b7b171313;
 0xf2336e0eee4685741ca23828c34c24f073491f0e72c139610524a56f71aa405;
 0x1e86ec086805bc7712b7510def651249ba1d491076241d99d00c692880f39a75;
 0x14937879c4c7127644c765b6362f8b98cfd32f8572d7aad9cc329bed5b507a69;
 0x59de873c59806f55114bc3f8309f9b64cfcba7434aae220447ea0e9c4a66da2;
 0x1662f26cf04f5b969cdd6b93e890ef2b5b1124f51822888dc2167bbecf7c31e7;
 0x5fb897d71edd8d8eb1f3b5c823a5882a06d964056afd532e6c88893a25f2615;
 0xecfacaad0c147e0b3c7e049771e6d4072b02ee4d171c0e53224214d17ade351;
 0x25f64d42a750971afcb8023070f6ec97bb2362b196a5aae2af6a70f2e7b357af;
 0x20be703f86d7c0b9dad98ff8bb9fc92fe8ac0a84c6897a75d851146f74840b71;
 0x296f3a9c104222692a44ad24f0f6fd8190027e0755567e9a7009ec71ef440ea0;
 0x6301679b6cdb17aa6c212ce342ecf681ab7cd96bf0bfb93350368004d97c353;
 0x7940eb04b61ec5341c1702f03993faed167db6fa2cea92290cd821b15fe4c2;
 0x90da12e1595551d2500f90310b7701df97676404113c33e475b2e7749adb613];
 [0x1b62d4b17de67375b58f248a88dbf707cc9d1491bce0095644ca0219a01e40a;
 0xd9bb7dab4a189a3b6990a5526c82b0ae50ba7dd558f951bb9fd343cbb4b0e19;
 0x75d1aa6cd2b8d181c9e0f42275c9884ae6fa09186fe227e5c4673e56e3acd28;
 0x28f9e0058ebcf1591bc007cb02ac3acde0851427db20c7358dbef9fa9c57c2ba;
 0x17e39ccba3432a135c0075d720c649562ee4d31b6da2e9c90bd72a039765e73;
 0xcd0a4c27de11aeb6460e32fa2bcb289cb83321723155304929eb0ca4eea03c9;
 0x2745a059d0962f1bf0dde1e1b97e0bbf4c4143d10fd3fdeb8d2b295ee4d7a9dd;
 0x1365a904c7f6721002dbce17077a89a92bb8038bd27af53333f447c4cf035a80;
 0x2f812121e2eaccc7d51bf266398d5ba8f601a2aa6d335eb69f7864642177667;
 0x21f8d854091ddb601dab1b01fb30c3d4f77cc3167fa3332c3b32377a07e6aac8;
 0x18393505ea6230669a8030f6e76130a14c1070a901ba5b640b88ae80d7d30b5;
 0x1e151fedfea11659c189a31ba27f2ccf6956084188eb2c4c99b827f645f1db61;
 0x2ae1ec9e09577c82c97b4b09142ace51aaad1df7dc352cd4e5813d8cee9c98db;
 0x24ceb0766de25fc22789286a09287be740310c41747320bdf2eb5c956e040356];
 [0x2e1681bc7c22d24c433f81dd3a326fd0242bfc7e2bdeb6307e4d2aca32adda1d;
 0x2a4a6cc884cfd08af4b0dbe89b6d8e0e58113207aded8cbab2d075053efe998c;
 0x142a83206747200fdb02773e766f504c65af82b200c0e7fd942f92be23d586be;
 0xdf653524fff92dde8ec1c9a51c1bec30bf36a4f01e9b3b62eb13f8ffdf7b8bf;
 0x2ae7f1414f1443735318163e1bfb1e1bcf5c271f37f6abf1aa86766b2e59e049;
 0x2030b7bc2a70905d031674efb420336fabb0769ac0125c35dfe2ff372c1aa4eb;
 0x12a710de6d17f91af890102226853bb64209f1b41331a1d17305bf5b7b52172d;
 0x1fba713b98742311dfb3fa356ff83eef234ce8bf2b0d4a52de7af4d2519f2f12;
 0xc8f8722892a2f06c5ab454e407bd557e9c2ea77ef807ee0e3d89c6785b0d33;
 0xdbd093dc16e73832bde62d05cbb06f8271fa47229470462d8c18cf8a124f9eb;
 0x1dca3060a6bbc4c324f7efba22274fd8d1f2560a4eeba8c8b0d38997e0d9c46b;
 0x291bd9401de20916b9002a0066114b3bfae4d3c8308aba4afdccdf0aec12d66a;
 0x1c97fc775f962fe05a7b66346b93c3260c8f6a90a7f5c63223a3386e19852ead;
 0x1c7dcecea59e6f7beb6d702e2fe74588415d30e5dc09970bb2d56acc8e08328f];
 [0x65850d11d0eca87c3697b6f5e57f78ca86952bad1c9047dbd2eb6be9e9db30;
 0x1eb97819b3531ebb640ed6b42134335419101d1db60dd1a924ef9665f7a91af5;
 0xee4683c8da536b6b50773a469bbbde2e417a1cf9be221520af1e755968d7ff6;
 0x2dfcfb280a3d372dbc15639eace45c0bac562c44e292f1429bc916578fb0bfd;
 0x12ea921acf5b8adc6a4e36be85713576d658099230b0b1766c666f12d92ab142;
 0xb5342503af446ef824df4df6a088195fb67276657d420e6f312b2628e922986;
 0x9265fb314a676b6b3f827f07283a1ed4f300e8d90f967b20ff61f455d2ab2fe;
 0xab913f65e1ceb39ed8b83bd5d7fd900e78511edabcfe62314dd10d567858d8e;
 0x407d585a6a7efb561377e5f3972319a3e7285e146c5499ef6c8504a3d0b62e3;
 0x2ff5bbbc022d1b74fe184c064e58d967f1aad1f0926c906a5e356cfc3b81ad24;
 0x6da6d88c233e3182c5fa5ccda1392c0f89f7c6bec4e60da8df8054807eb0922;
 0xaab27e6279952c7291f036918f0b279d3b1d9f8e4e8ac380da77ec2fc24ea0;
 0x27737fcd76dd296c28817646d30b1168c4d00e1f764c4565caa3276defd15c7e;
 0x110a5e84de09209e9363c03c22b537ac6a7aaba2f6a9d1a1f6bfab71a960a583];
 [0x1a59b36b94f9d723577e504d600c493f2810f0e67112672c743abbb13abf43b8;
 0x226b91e352c65de4fcee112445bff20e4a67af0e110957319b2860d5087406bb;
 0x168e771e9f8f860c49367ef919a00d4f128bab01c13d7dd72ce8d36bc6d1d835;
 0xb345890b33c23d167396c583d12e4f3d9efc904f261202512350190ab1961c5;
 0x1815d4c2e6a18f4f3fa538a004146d7f540fbe80a4605857714fba2795615df9;
 0x282a555f9ad4fb57698faa1fc3279bb8c28c1f8dc8c693225bd8520db4313489;
 0x148ab15972a6925b714602710fe9e64c0a015053acb838d0e876a46cb5653f59;
 0x8e13c2e61c446b53024d2116ab176c843600d00e676402c4641745158c243f8;
 0x11cb83e01ff5803b049a2b59ae9915b3e0045e1db694a6df9de9c4e7152d191d;
 0x119816862c8226e9e5dfabf3167b3b2bf7fb3d19063989b24a16d97c94bd53d7;
 0xc61ec79b106e9dc6494a6359f175ff637839ca53ac8e7a13471c56646180390;
 0x1e8ee641308ba6fe5600b2df492cf2f14f9892ba1025826c53c77aeb7bcdb04b;
 0x16b61b242d41e1975843309a01a36a14397d7c8e7beb4afbd9233b453aaccdba;
 0x13822dcc3f6271b71549c2cd917b859cdac36af6848804d15a354d4de0f67ef9];
 [0x1a4b186b77cd53f961c8ccb7815d9781cef7a52af64d0bf746cb522512d3d0af;
 0xac5b86128ee47944c12af531cf1458042c35adfcd9e5b6a7531973714559de7;
 0xc2a439067121449c1ef3dba6be1ff84f6ab7fac4bbd54ad7539e61826ca1971;
 0x4f7f1fafee121bb811344f73f54f4a3583076739dd9dfc462b3ae6343c93cb0;
 0x18f6c40e3ccf885804b374433af0a962b2963fb9aa01e8bae8cc834b3e17a31d;
 0x174c1a1095e95d4f098c8d60826776c2f73691db37ec3b937835b65b01ba13d6;
 0x1f7f9704cab1cfea2b2471d579ef99d193b234af90e62ca09b5a671c2428a515;
 0x1fa02616024cd9bedf643ea36d262d1b24f38a557a77a82c686618c3c33edf9;
 0x2e1c292e06b7f8a6e4344f10540675a63ca49e452f69565fcfbcd43bac0f3af4;
 0x6fbced52576a913e6cdc5c5c96fdc8f9f4e931fa90beeb46d9b3c2d775e1e36;
 0x2cec67e62320bc6a0ca32518ec81c74363a4b6d259bd275a63425d6cede468d8;
 0x276e2623828949e6a2fdc917e2ed45dce0ee503cdaffc9add815f6d1d3c4f9d5;
 0xc75ba60f8e0f6afa126e75703b83d9908116147b8b2db45ef24f3156b8f1855;
 0x85e380905eb2cb7e753d0ab0ff4918b232c734418b6bfe1331de492fc76b21c]].
(* poseidon_bn128_constants_opt.rs:5397-5618 *)
Definition bn_P14 : list (list Z) := [[0xe30a774c353a2cbf244d3d014d1a0e5ff0bac5e242673ae33f1bb2030feff68;
 0x2525da24e1d134d9e989838304af65260bc9e8f31225ca603420c6f22782a31;
 0x138f42d30ae01982ed697be56da923021ca5ec09fd9fdeafecaf1b815a8eb44d;
 0xb68eaed660cd2cafd2ac447e6b5f44a4acc0acc59379fa1e1d6d6c23e29fd18;
 0x23a87eff7dac26756048b8a99cef16bbd4ed93f085177da15c763bfbdd413a72;
 0x298b224b535d0d32e971977b9fc2b3f83df09ab550af80b838c2e1308a388aff;
 0x21fd7ef66c4ff374e85b552f0c1162831af7f2e1feaa30e4d42c9ffe585e730;
 0x2a75ec0f43bf0249456ef5cb1e58b4716e135e1033791b706c1198e370cf5912;
 0x217005316ff983a988abb4150d5b89fd58f5e7ef95d275207afab9bc736dcf79;
 0xd200fbac6500899253294ec3394f5fc2374ca3e3243c34cd97c5f8f31f78edb;
 0x225829f1730cfeb97ccdb5b1df418bac0f761d57293a39d5ec293014c78f38cc;
 0x17b09625ab3ab20b7be3da6740eac6450972d5297ef55ff4bee47857841685e1;
 0xb98d9ccb5cd1979a0c45a9ff8f87be8f15ba1cb758c602775d2a5711dab8f70;
 0x26c6a596dcfab11f05dda86122034b6f2046c51c0024c4c673dd93c63ecca6e8];
 [0x12186bb22000ad84b6bf29179ade2d4e7e94ff07e51627e09580571061fa8ce8;
 0x945c0594d96052f702d1c0c8d423cc5f054bca11e54a939531e5c6616696a8a;
 0x1a8993400bafdba532b42fe60fa719ee2bb70744c9684c87431ad462b69f6234;
 0x271684ec4ed2564694dd8fd7f7ce52f573c22c72e8268ecffdb3f3256cf94d86;
 0x199d5f44df92c42cdedb75daae78948bd1b812ef63e72c6d01d77c9d513bc32;
 0x1554c7a78e970212db02a0c7478c02343ddeaf350d52ad460966c2198475e5d5;
 0x222ab7be52097210638f70d1bcf3ad6842230e0561e1ae556519ed6e44ab56a9;
 0x391e74d9ce9444812f42cfbe156e7403ec00c10888b716132c819542982da3a;
 0x145f48fde51a4c7f0469cca2a20bd5c5794c594c08ea063412b82e4c21fb67ac;
 0x1c346dc47106b6a9c0e34f2b6a59aa07c0e23a7f0dcd72f98698b6bbe2440a9e;
 0x1d881f9bc6c0a69ad8c4cf8ae0854f5e39d7f120543ee72fc776156a6dc41e25;
 0x1d6405c7bbef29b6526df75b9b3a43749f55a7cd60c2956e61ce35446a14055e;
 0xe1f6e07f1a7310ed0af6b08fba57b93adf17ac40ad5b334a7b5b8d2b21822b6;
 0x1dc01119987d2a025898bddb1d79385b99960e97c100208b5e992d9dc74ee608];
 [0x2399faa648aedf9024c6ac3ceafea248216e24a9e56caf5acd29ce2546a9f6b2;
 0x14a0f9e89a7bd2f9e93a28113256f5909e18bd8f2d4c6a4b91fa764f5d6e9813;
 0x223cf3744fa802eecb6e33bb5d345a4e2e494e2e0868296a075010d891596cf3;
 0x1cae3329696575edb1c98df16a20e97a0dba9988601fe24a6ac327233edbd7ef;
 0x2d2d2d79eedb473fc052705abd07b5d7d13aa9a52bfa0a34b29bccb2768ce812;
 0x13d95f949c83e09efec7464df18f95b0f569fb43aacf2e2b2b0d1b8d6a4ad5e;
 0xdb367b50c96c5ad714104e535fcde5cc2d98a7358dd85bd98cd4e7398985874;
 0x24d565383969b188f2900ee27741e48500dfaab461965ccf6acc7290c5c07b38;
 0x2c08d33aa07452ec8d30fed9ac5f8218885c18de68857395b7361d06d5d50c64;
 0x2eb969d5960104432dbec4c924f829411bcd4eb2582508844fb46c57e4b971de;
 0x1899d3ef6a66651b27035f47a0030d77085b988bfb2595392d46a09eca668e9;
 0xdcd018b542eb51472ef63566573192f167b8a41b243d2f9cf7efe0427bdc769;
 0x1e76abfe0e0c0907983d49bc07cd22392c9a9fba1cad773f87877d8514e4103;
 0x270775b57362a96f142cf0560a3c1f28f8b8f84b1695cfa20b271217cb9460b8];
 [0x3add29fe398ed2d44f233125ecd1509e3cede77e6be08b94af4fec87eb3e48e;
 0x292e485c257794ef8e1fec5dacdd6ca69f168408249a6e203853615080cd2cd5;
 0x22a26c25e3631f154c6447ba2e8543b1d0f8454bd027168e715f21c86d09d399;
 0x2013efe5dd2c054f547d532fd6f38d63bf3cdc07c1b3beae0b830c536936dfc2;
 0x10b99b04d7a8e09059e28c723db16cb75528957858c3f9988f0050d18a30e660;
 0x17e35329c9aaa754c345d6eb317c368788b093ed1d2d136714ea1b2f793da580;
 0x28ec7da8ea43b28add669ec05c0866c2498ffe99bfdfbec896bbd70d08720f64;
 0x145115518f4ddc7a878c4a4c3a0cda353142b420cbfcaf2f2eb7d67c6817ed1b;
 0x21c96a22d60f44c34f543b5086ab4fcdec036b280b9f5a64a3a2003a2a79e906;
 0x2fe67a3792bfa46545ba3633c2d504d9735e7d03b58f9208f584a3ffb3f04a82;
 0xc27c0b2f86856b2350007a8501222d7c7d89c02919d2a310032c4ede9da6d5b;
 0x76eb0679a3bc5901abf1204e92462dd0049c8b80f0d0b110ea12ca6d9da5808;
 0x28b6ca5d7278ca2537b3167bd0e8c8094a06ff3453e060a1f52f077ce3c0f9cb;
 0xf7036425c9f4bc087576419d0534698adef68a0ded0fda90b211bdcda6e05d5];
 [0x121af61f4dc5bb24890abeb9251e5cea94770ab062dc0c28bb8995dd8f183635;
 0x1b75bf6cc3265511f786609179f18b582a1b6261e9e6a9f05ac7e9a4bb015a3a;
 0x26b90bebc295253c79bbc8d0324cec9805f3730a7c7e3c8cfe7220cc90b2ea91;
 0xca34892eb7fa3d7bb497043be8462cb387ed055f83566b165a7dabc75bcc623;
 0x1ce0f7ea351be6aa78e3ded0a3d69d69de3890cabc1bfcf40583226decc32d54;
 0x1b5b9f9ac26a2e054deca324c9c92bf4d64b0b7be729631f2350c4db32232768;
 0x94707149dc563db7a45c5cdd80091c3972bf52a6ee3f8eaf0e6bcc6ac0e3976;
 0x25ceea2ec9fe11994d5d6c2e2af196963dfbe8112cfbcdb49c5b80615cbddecb;
 0x2952f32d846a2cff15c9f028f02fb60bfcd8a7b34ed120ab6e393a1ec2794a4b;
 0x930264343e7f5af2b7e5a4f7f25d0be85825666a68d5c02c5a813e958c3253c;
 0x3f289db20976c1ec1aafcd0daba9c386dd8edb8e577311dda9ae8082369891a;
 0x183e186c2c72f4a35c4fbb1eef8237e1aaa2379dd8d61facc59d6e5f44da0a83;
 0x1c921c4536be42aa8a93ec0ab11a37231dcbc0ca9ab7749e3d5cf9913adefa8b;
 0x8ecaa57e55d210f56d9c8141f70394e59185625df57435ee2cc924602212203];
 [0x2ca8ffee2d58f2945297b00cd0b511da167080d53949b3f1fceaca9616b6143d;
 0x23894e025a72e4ffd1580bfc4748a2725ab6f214a8f84e40d266e5183c6db8ed;
 0x2600d56e9f728b982f23746da7a2993bce578e7204b9edd1f474405bd7593103;
 0x23e3b3568798af43a561614af2c8aee40d2249d9f58452847c453594dc8f38d4;
 0x2145a0959a46b3c43bc559b8811d309d48a452423025b85cbb3febcb24f4066e;
 0x2f172acf4fcd26f6f939157d0da15bcbffa981ef6b22f7525c69f9ebf801192d;
 0x28f529934ce9fece64356acf523f32443178669ff77a0ad6e7b86020e413ca4e;
 0x9385ccdd032e8784bde4412886e9a590ec85ff5cbfee02a6c5dafcaeb90250e;
 0x2a4b9eb8b2f9e4c4f2fd334185a45d0d2349163bcd7b808815b2e89543c09412;
 0x3bb2a5b659f1f5c2c82bbe5824ad64a260e21e688f5fe01c61632fcda348adb;
 0x29e0c22a0db446552403a18473a2e5d923f0d2a81b23f593877de4657fb1e877;
 0xbb85f352ad58d8e5998cac57a0fba1d49349aae47164fba3343ae32ccbe4206;
 0x24e9c71c5607519169015cca5f0be8e416f21194fc7d610a38d3e48df56dd40f;
 0xa098b67cc231ed6a2b72bee29f823702b67dd0bca78f7316543097856b478cc];
 [0x2c99ef5e064147da9782b914a294b6c14d21ea7eec1f72e8761671069d82a134;
 0x1605b0bd96a60af6d3ce4feeaba7498571b693596f79c09a3485cb6e37b1480f;
 0x1b322f4a92d336fb2b92e1347e0f73037655b344fa6ceb1275eda5baabf61dd6;
 0xde44974e91df8151d38ddb337dbefb7b2423f8c2db33c95249664256049447e;
 0x1cbf2e32e48308fd5254bc8466ee1b448825badcd0d038171d39d77bd61c122b;
 0x1e25aef828ae1b75374d1806053383a3afeb4c247bb3f4fc602a31258129088f;
 0x28796af2b46e4481c8c68767d755b2f28c2229892c093faa86ea6daccf4f403b;
 0x2b9c2881bdbbcab60ca2981c28b4228f8ad48e64a7b393ef4ed080907e6a1774;
 0xd00d400c8809e16db25f2f1593dba403ceabbe3d0b868399bf12c1ce2a6284d;
 0x17767169e7d1636e0cdab5d29588e903e1d4343000d5b54f3e523e956af6fd58;
 0x12e4b3d7107e8bbf73c227c3fe04ddc9277aae8cf8b15a769c7039d282661866;
 0xf53bacde9c9005381ed7bd0d3a35048f9b04d99b54cad41bbffc9704a574abc;
 0x241e0bb48bf63003f858adf8134bfec90214a7836f7af1bdd263f5ac91906803;
 0x106f70b5c82b6a41e401fb3c05ed0d4a5c1d6ab66ab048d2a928a323556632f0];
 [0xd7d07cd3798f44d832a6571c21706758693e5e93684ce2d1a5e8a53e0cc6709;
 0xb6ea459a3eea9912c01005ac024cdcb60d77df03bf6d57f9de9277855f5669c;
 0x26f749e039b1b58e9fd714e0b5edbadd2ba23f0faece28348ab8eb36126e4a7b;
 0x1a8077b3370f7e65d450e0e536e1e73c9ce33596023de1cb2d4f1321896f5184;
 0x2f6784fa0636348e5b73d52307c09dc7de28dac12256995b7d2d8014be1511d4;
 0x1b4e7d76dd8cbb42c1e90574b4f832a07a53912dc74b2f1983440252c232ab0a;
 0x9367ecd533634327435fbb0317bfd4de720261bd6c77f2348f0547d4dcd155f;
 0x290e7fdfa796c9a6a1b3c2e6d746601f49febda2af0d2e7ede804b822400e81c;
 0xd532c4429d77c08679ecb541865f7230787381786f7d98d62a06e8a7f33f3a8;
 0x78ec6b19c1d89049a01ea1a959df4525e1fa2b5c6d9c7fe00ecd899af5b8693;
 0x27932ea804885d901c0a89103c29995ef207e753574a7ed679b162342c54f27f;
 0x20fdd250fd434a5fb9072c597b940cc96fec2986fd603526b2becc58e431c8a;
 0x211dd323ffb6bf1f7a0c747597593c44053c3d5ad428b1145d04f0a728f4199a;
 0x437b94aeaefff8e636816d1f7484e12de60de9199fe298c3a8466036fde9053];
 [0x29195117106623ffffb0af525c838686d0d97259fc73a5194609ac7b7b171313;
 0x16be4a147414ff8080b2a744735ee85e2327c3645e26a4d21846bbda0f5f6ac1;
 0x15302004242f418b70c701b89e3585ac1d2cef27046b512c7fa841e1c7fe564d;
 0x103099f79452ce6c8848e50bb04b50723aff5ef915d2d7ffa0b8f72bfbb6a906;
 0x1cddc847d2f8d9e6c20ff55628cc4e9cefc59a283a38842462cbe60a9a1d0336;
 0x29bb557aa48769cff8a9d0ab0e7149f835c5552e5e5ae7e6384043790e45c1ed;
 0x1cb2f7fda98a18a6fd20de6fbf412d07f0f41fcdf2088dfcd0e0b852fdfb1aad;
 0xcddfa96db02b40d78f740716d6aa26c2c6cf125772a9835c9a34a9046702db8;
 0x1f0f734e95a45cf07b70b85846b65ffd3c1eac10a95e0b917f27ce25c0ee4afd;
 0x14ec222b4b95c3b602c222640d8d6dcae21dabbf1e805637ec3bfd8984577c08;
 0x18f31da4274218b2691aba9611a798cbc9e9405f111267cbf424a67799ef67ee;
 0x18a38fbc04f4e85a687161544a2e3323bc7bf504a5ce34e8ba4335767cb4eedd;
 0x218b8f679b6f2f6070519663f49d69fd9043ba6d1bcd7b7b85e825abf8bfecdc;
 0x1a3d570d5a331ae41c938e81e8155ded345d180ad5ba49b4e1bb70eeab467a36];
 [0x1b62d4b17de67375b58f248a88dbf707cc9d1491bce0095644ca0219a01e40a;
 0x23dfcb4155e378ef7d127383d66785b33808a3223e22a226a3e3a0f7bc5200a8;
 0x1bba25ef90c2742d6bab9309747fc14cc73e4024c803db5e58c7d2525839b2ae;
 0x4b3c3687111107b6b39fde1f5eabb0de5e2fafb481c0845f0e9e3e5f90057b7;
 0x189aeb454f60721eede010a005c4ce55509f152e6d0e93e8c5f9a9a6d3adbbd3;
 0x18572091465cabeb96748f5482d37d3926bf7c1d6680dc932f45f55a7042b02d;
 0x1a5ccf7ef451a14b3fdc531a52831728f5ec26b86ba77c952701db2913a698df;
 0x152f38cb9808d5c942c23624abe88852a59f2813392030fdb7b1753025829991;
 0x9e543a62e93aa3005be9112a49c5308f5b6f79591b4824f6355ae12300988e8;
 0x1a145f49ae38f332ad67bd90734b8bf9d97dbc5912cbac8f57417e334f14230f;
 0x8857c8b3f0b9a7649805371c01a74c84c67575d9a17be0e5590aab52143377e;
 0x25fda357cdab4ca130314a01d381febf812c14473e4bc9b13ce8849eef1cbf96;
 0x27b831fd2727802f6a873109adb4196ece489fb5b48113565d8113427aad42d7;
 0xeb8c6eb7b2a00cb45db63f58e55d78f1130d92a56095b485c662be692644733];
 [0x2e1681bc7c22d24c433f81dd3a326fd0242bfc7e2bdeb6307e4d2aca32adda1d;
 0x22415ca10b65c83a039f1a749e649fbda0cfe2fe3403477a40c10689ad5af158;
 0x21c92d239c137b9a280a728acbd058a8c75f321e0d254c346aef2b0f3390b07e;
 0x41fc409e13a628d9632b87385d24bf4f2a712e3642a36c9875cbb5e90028065;
 0x6850ae560ad9a7e89bf454f4300cac5f5184453afe49fd3552e63e44e72ac55;
 0x291f4b78708af2e6d2021bc67b8b43177e7c0533ae1d89287612d85cbd16a4a3;
 0x22aba2a6f80e91b2b4912240c72983f027a4c158910c03cc1cff66c545f8750c;
 0x22e33116da2228316bf3d68b2f1506bb5b5b87ed556aafe4f1c1638f723b0a5d;
 0x27885fcd66e6a1bda1f55599328bda53f0dbbf8fe39d8e025fd500e44ffdcee2;
 0x28dfb66df089941c1b64c42f01e015b5f3bf8764452add9b24f4065b7d276244;
 0x2e5ffb493cfee9eeaae1200f360829d0c2c09ddb592d37d0821363aff6ece299;
 0x21157a29f47613a80bdfc774d1c8278abc3f76e15937ce9b24176e1b4c9e3b7e;
 0x1cc9014506211730afa1e9e45c9f38b6e6218ec646e79dfd38ae0cb8d96ccffc;
 0x210396c1be722404813dca0f052e321e183c00dd1671044b18bdf1560b04ed6f];
 [0x65850d11d0eca87c3697b6f5e57f78ca86952bad1c9047dbd2eb6be9e9db30;
 0x854fec1c464e2fbad9ed6737f451f4ea27b6a1d97349941928b5911b5b7e3b9;
 0x2c240af2cced1a6d0d5aeddc36c875d3a8e74325772748ce1cbd5e01801b188f;
 0x804921684796339f40259855eb51f118262da54c1ead0364ed73b7b6f328dce;
 0xfea56a59a68a9d3131f96672be04f078937cfae01bb185c074be5f74a37b226;
 0x11f61a3860411316eee42dfb735b05e0ab5a905a2478b9d446acd0fb1403d00d;
 0xa80fee34581fae3188ac5f2c5aac9493e6db12ee7a2782a036aa65ed89f3825;
 0x75c8623c44462e495ac4b62536c790a89875e9fb559e29fb51c32d6601ef297;
 0xd4ee74163fe389031e01f793b3cd7f76971649372ef075dd3f2596333c5a6f8;
 0x2a06bde137eb0fec584cfe2f11c2ca43be25ba8dc31e0522191cbb63ffc50b6d;
 0x237277467500a6589f208fe577a0ed6bbd805f5bb1fc0543a22f21cb98b46108;
 0xe20cd93d855c7f14979bcdb315d2f9891e09e4099cab4f82b66481d013eac94;
 0x12dfaf2a058c0890bca0bc89b72eb4a575f10b43a009c6ae22207149884b4638;
 0x299298324b7b1e7cfb05fa7c62c2c471b5a8dcb233f8c9e1becf67d8bdcb4416];
 [0x1a59b36b94f9d723577e504d600c493f2810f0e67112672c743abbb13abf43b8;
 0x258e09e408d6f662f3539a649aa156f18cb46302fd0fe34f007b731db06825ac;
 0x2049f9cf12d0e210a7d82a56694e58c76d2f1c5ac572aaf9b6fb770c09f8dfae;
 0x2d4687de2ad43600f6852c2a191cf74d0c3e4a7ca0506f974610833fa201a72b;
 0x2803e055305e45f9ba2d154206439c02a37e8a5c3fa8eb38d883c75137d96216;
 0x7ec1b96a04d4eb1f0728f1fa0493019c6f1a95456997ba5003bc2bfdcf43ba0;
 0x1dece2bd9b515875c114246d055fbd55492a7d26aa8022227192600fb17c8c82;
 0xa1973619cf434b77422536477683d092d710c68a3644946e11dfc5daf4c3e35;
 0x1e4a2c836090a5c960931f020bd616629e93cb093ee02285f8b9d850a74f8b57;
 0x2a12cbb75facd8548f0d464d85c961acb166b73aeb3422edcd1c3c0400824673;
 0x2ba25258891906648372370673f8b9701a7a17f5159c26f83acd03dbddecb683;
 0x19e70fe4bddddbd1a2010dd7f35ad802004b8486a6a1296b75fe87c2c5246908;
 0x27d1991b6be57840c86c76792fd9c3b44cc9bc56569d8f5d78012c17c9d01b20;
 0x26a6b81d5d4c3e4df5e93aeb39266b56a536c153210b9f4dec10ece36e3f9e];
 [0x1a4b186b77cd53f961c8ccb7815d9781cef7a52af64d0bf746cb522512d3d0af;
 0x8b39f702949a0a1a5906339e83e663519b264c3039aba4688bf2e3788b3ecb6;
 0x152877c59e07350aa9f0b36db00c436234c76249dd0099607b03567b4e7f056f;
 0x1156a55febc770d3e72337b4db1bd2fd680594a9c9dad08777aa5d898510e5c;
 0x1e2cdbd10cd7e2993c0a41fb073400ff938f590e30b3db6855f12c129d681f12;
 0x4f089c87cb7babaf031a4d0d0f5c08e00bfc99cc7befcdb22e55256170cfea5;
 0x2ebc3e6c61ae6901d3047afb5095d5f86071a28026a7351945d6fc4626c2f1f9;
 0x230959791080b2d262131ee7b43c2de9422a9b3a59ee1241e762ff0da380856c;
 0x10bf2e728bec374033c31e16bab6772056a1ace43bb4c3333a086256e0ed9d8e;
 0xcf6a0317dc98ba7fbcb0dcef53d804271bb932225cf3c2fb8c0564b898c13b;
 0x1306e43717156fb4e21ac64165dc5fd04b3f5dcbf52314fc0c84d09ba5b6578f;
 0x9a6e0063c05651d63e8365f4e17415f0ab59d07df4916e9f3c6f649c4f10250;
 0x211a3b4e93de320852f06668c192079c3d65a00de2a7cfab966ce0fbf9322ec0;
 0x63781e7bb64e40ef54a4ac17d47785b8fae5da0c4b3bdfe4de8edbda7029bef]].
(* poseidon_bn128_constants_opt.rs:16946-18835 *)
Definition bn_S14 : list Z := [0xe30a774c353a2cbf244d3d014d1a0e5ff0bac5e242673ae33f1bb2030feff68;
 0x1578623ddfe303311ac327a432aee9ac8552cf37d7be9b4323c9a792c5776c4;
 0x17536451518c265209c2d9d8512a80f5abe4df372bd9aeb5eebc2b799fb1d978;
 0x1025b7c8b5b38ccd6fff7dbea3215f6a1cc80c64973d8972c0bc7674c733a157;
 0x1a7c14617cefb39cde217f3c2583bf35d538750ca9818e2f04268322c282012e;
 0x27993e8fd8e80385b78a6214675405361deecbf2c86441634eafb7c99fcdda8d;
 0xeb7c2b5ac700501da181caaa6d42837f6f51713924eb3e5d6543801ee3c974d;
 0x22313b179534e4b6af14a56f8eec32f02c41988093cc7f4fefb281956250b170;
 0x277988ddf7fa2eccfb2560b2b169e12a48dd0b3707ba3cf1c0a514c4852ca68;
 0x2aff90506172c4300c94d20c37a877bdd98630c899aaa00bc83f1b7d99e6c943;
 0xad7537b0825edcd460d01970323bf5f0c336d57b4ec04b155e361068216f859;
 0x16573e4361e87edabb67f04a10a84b8655a796aadaf0ace71d282a03ef73369e;
 0x7befd625351a2e970860afe5ef0eab07dc7dd518eb6145de77252bc4769a4b4;
 0x250d2c639105c9c5a3ce4b6df01973cc41819fb85be886084076f4114fa0e654;
 0xcd782c85933dd07ae0f3f6b0e3c440acbfd915c2fd7da79cab1cfa57f634f4c;
 0x23b6198a0c85767848c17cbe8708eb23bf53938a60a99576e4c2a7caca25d18a;
 0x1f7e50e68a089b2286a3ab4c8764b2cb8d0da8b26b85c0f3a468c781f7cc114;
 0x258ebf40c08515d8976fb6d05da5f7a43455448d998e8682aa49acf25a307d24;
 0xde67b3b49cb60cf0f2074e36325065707c58c2fed40ac7a1e2856a8fcc3211c;
 0x178c746273a2650cb608c7abed3bab595e8c1403a7d01f8a8d1cb4197e3e96d5;
 0x2ab3c9a0a6988f6fe5e3739e7ab333de77084e6177b0778931f004083f807de6;
 0x2d86755d3a375e8b14ef5aae6e2eeb5105e7ec1607de4d61258de2617f790ea;
 0x196725d332dc50d6d916a1a6347fd70973f461d2a1fc2b941ab891aa04b3f5e6;
 0x132d62cf82833c79ff5136eb2e396d5719f76ec0c556565b5a7869234afda829;
 0xae37c618053667860b08f31cd97e4e266191da715708bb84444741d9eb591e;
 0x604994f682990576a6e1c907633bcae2b29d2b91ef8af1911b41fd3fd168;
 0x182aa4ce666d170a3aa6bb17e7ec00bd00dcbfebd02f3fa500e8a01d6b094a49;
 0xe30a774c353a2cbf244d3d014d1a0e5ff0bac5e242673ae33f1bb2030feff68;
 0x10f8dbfade79085f2d9cc0a15334272898e50848407cf0d1b6866cde260a043a;
 0x1953bff54ebfac7d02d5cb8e079d56c84eed51d6f341dea31c6eeabf1a65967;
 0x1344c0e662baa299ac79300aef7ef1387b1926b0c323ea279be046775a8ead2d;
 0x2f027dae71476ebb6b5f3b1630f9a92126bb31a72e50cfbbe9e19ba8942feda4;
 0x2b5570a23123c5568920deaa8d1f8882ecc0404bf73bec01f67562b600568862;
 0x2485dc5ae845e8acc0c38c7ac313607479e4ceeb25f35ebcecab10d829fba247;
 0x25b7907ad098b9a7ec9773bdef17a1d315baccf502a2a303ae9292fcf24cf86e;
 0x25bb66388a0f8630d499fd04740c16ae3f6f8481b2f9637a370e921489558902;
 0x2a00221d8edc58656999ae7406d58758e795a9741c004d3b99e0624d1ed9651f;
 0x41ea47bbe1f576a1bf165e9eb6c82b74cacc22011c02d1295aa68a734108477;
 0x2fa5eca22a4bfc0739f0671dadb74de19a49bcdbc6b23b3e4acd659b3ab7e2ad;
 0x1a103aceb4a30c1289f86ee6d359ee808a1075dbaa86a9b590da829f89e0e56a;
 0xea6e1b215fdc970b74cf8f31e3e78129cfad0e545939cb6ea55b4e72f348838;
 0x1017db78c2c1d169597ed69a3dcd02467e30071dd418eb6e9db209805314814a;
 0x22002c2422ecc59939f303b6e3d02d35aafd288b4f7936838314e2047b669672;
 0x7c83bfe3e0cd2efa62ff8cdf694ccf8b3268c2356be960335b45c9d57751940;
 0x256b5d75847a3cfd5c4a79c7890ff08c58b73a31f14bd07247241b70e3b892d4;
 0xaa8d8fe4f42d5ec00f582f56d0d64aad9977a43b185d66000c139614d9ea30c;
 0x221dd9b914aee821ea23c359b337345a22da01eef81613e55c97fe275b42c4b7;
 0x7a71841bdf7ee0dcf51ae4195cc8adf79be1563616fa5f6b5d932eab3cf4d9e;
 0x3f7813649d46bcc7419f8ef37cf29e9b486e285da3045d96b5e3c6b636643f;
 0x2e4b8a3c581c527e8a12b4778ff69d8405b2dbef389d6bc8ed143f72cf2e3b89;
 0x17c1a87f4f960d913f5eea140959526f4c8ed7a7fbc2744fe37ed332e26bfabb;
 0x2c46585ae9f6cb77c3217988da69423b71724cff7fbd8cd879a0c4479af148bb;
 0x2d54300c647a770fdc4340e7422d79b643596ee6ac6f7e1b3b6339022a1768fb;
 0x1bfe46241f2211c6ed0e7723765850aa6da18b5d6c692d33eea7647a73d097f2;
 0xe30a774c353a2cbf244d3d014d1a0e5ff0bac5e242673ae33f1bb2030feff68;
 0xe2cbddf65c2ae0452e3eb2578ac21a1e5279c42481e4a41affbad2969721705;
 0x16ac1278c3b044618e61a767b13dee22fe364509ef89845b2fad1a47c2b9b5ad;
 0x224149478db068fb7141fdf2746d34283ea9e42313f8bfa3e9dca597a23ffd95;
 0x1a8f0b2c1be34d3d04ea78b2c38118f6e05ec781ab95c964e9fec00e9da70f45;
 0x9ac6d36b9a63d40259a98a78c9a223de633299b75cd49a944ef361e6f9fb9d7;
 0x12810af0ee251f24fb86894b758bc4e0db0db4522260a9bd5406baae536b23e;
 0x13e21a7cb8f49dfb990df144ce9b950ace2762a38331d90bfd5121a7d8cbeaf6;
 0xbf46bbc35ce9bab54a45c3b9a308df40b6b771b3a0c82634e86f0e8369aa2e6;
 0x2d3905ba22fd54bb55e4ca78722d0c3c6d922ebee33c024e3b530414b0e27819;
 0x21e94a20b029bd68674fbe1179ca813dfe61b3ac9a2cbec68fc63f4625ddf20d;
 0x2eda11aa8cf8a13cc36a5ee865c465bc8a7b91e41061abe33ba2a48945be03b2;
 0x1e86878d1a99e02c9108ca361563f8120dd46552dee8cd864599bd965905acfd;
 0x213f9fb0da20d21d4bd549eb2cd60f2e951cdf11bbaed2e8347637c28e90dccd;
 0x9ec04662663c012175d047b3badb9cefdd56abd0e1bb8824f8b1af84c81cea2;
 0x2cf6e22ebf6b69c9dcfb9b5e66d03f2c9dead8b168be2671fa0c900dc0349c62;
 0x1cb3909eae030fd0ae2a623232e8daf5a527642386e6a1a5cf8cbf36e49c9f41;
 0x2a954bb1d6463b7b6723ea7a79b331b5201cff98ebdf77311f8eaab7a4bac880;
 0x1d232685a73dc553d0e1b8099acd8936bddf42a40813d52edb2ba0e2a72a3853;
 0x252d7955742982802013cedab484c8d461f9315fd6c30a13a076ee1fd84ac652;
 0x2144739dc6440cf4f08908cadc61413b30e9fdea3d600ff64f05c5afe2742a52;
 0x26d2ef597c02295f490a26be40bf56c9505e4a977f017b0ee1b4539bab40f92b;
 0x2effc6807ad79b837e532bf4a9f65a83f920df891e563011c34c585b8b5118ff;
 0x2e095a7e1c68ccf1cebbfd1d9e6b10661fb3cef485f2ecc8dedeb107be1a99d2;
 0x226f0b52596d08e12c5d979f74cd74461c37b9ca4b74c2d3d72a467f682f67a1;
 0x27e4dc61b7f4c719754040db80c2c2103197f34a54a5de92fde3460eccf92b38;
 0x2a0121e238a13d0dfb1507f0ca6c1686f838aac334cc1ecb2f7d1ffb7b89c130;
 0xe30a774c353a2cbf244d3d014d1a0e5ff0bac5e242673ae33f1bb2030feff68;
 0x33c6d4d77acdece9099b3b1c2820a64c2f753582562ace2cc24fb4bf2099d13;
 0x8158a4f4a451c60b9c190787757dc064f45712636cf0171e54775a94bdf1954;
 0x1d18e0af711abc6617c0385617d21b4c1896f0199ba927f33692b3c1171294cf;
 0xc8ff9debc6b5b90f826623c99e25cc8ba5b83f810b1c2be42298e445cd1e516;
 0x7455ff7474bf2511d200716e916cb97e0842864cb89a42fdb87a479a63f5055;
 0x2b796bc4350006ffb852f826d4261ff6fc792aebc1cd37f273e652180dcdd65d;
 0x2231f46d69ae4d0ae2429ba6080b7fe51f3f934c3d6607aea12139450e394dd1;
 0x2e37b2806360065a4e80fa3e6f3acf0cc90fbfee5e8e29fe20367345f8979dc5;
 0x1e52b1dad965f7d359b8dec0592575d918b48baf65dc217a442db727e46ff8b9;
 0x266f2edefdeedb61c866a0ea64d019f31d1ddeff9607667a5e89412393765810;
 0x622b99a4f10e3ea4c1a9f0a2c0823602a1f37fcf2d70b6e729f8a50751dde06;
 0x20b6fa4bb93ba74bb91a9680f4dc15e2436baaa16cbd85173881a89d2d39bf07;
 0x1edf9a959b552bfa30461615955d8bd5ab7a2d826fb2b440d363029b7d8a16c6;
 0x2352faffb1f4d71dcc7870bade6df391c49d4046451de035837feed53448ef50;
 0xbb1c8476707800ecb7b2cf40d86e6a7d5aed4214b9d535b21a0292790294b29;
 0x1a004861dbc666a632c6ef9fca6214a36256e7b0ca97cee63d02d5740f7f72fa;
 0x115cc0fb69c30646288e34277bb9d59f5cffd364b3a48dc5df13936780e452cf;
 0x20b9d6ea816b25eef2eae178eb85edf16d922e259758611f8ca73a8560e5f612;
 0x1b7650b9721a1589244d0bb8910acba3020e5a849738c729261d229252d7570d;
 0x228969388482a46d9d2c33e3cee3f07ce2c8d2438e0023a20c7d5e7c1c84bdfb;
 0x1a1c5996f580dd93a0d48654c03d9fbd053a6d4a64b21d4487b7d16d586b9575;
 0x25c69df2d6d1a1203df21d682d24907f08c34b941f5351caa2b3c26efff3d1cc;
 0x12848ecece4c7385b709ff7c98962c528865e86bbb652a874c495e5931986f75;
 0x76bd3756046b7989e8aa9115b57abc352f470b3e8e981200cf37548edcc00fd;
 0x2884069a9ac9139181cef297a585728448ac6a74a26a6fe56bf9ef62d13ec6a3;
 0x7feff811d5e99b474c5fa155004bea6a6fcdf03a681acfef2e25ad334f71e5c;
 0xe30a774c353a2cbf244d3d014d1a0e5ff0bac5e242673ae33f1bb2030feff68;
 0x1d20333ffc3cf745d561f12c425d8e1148000b7d042aeb5f26c5dc223fe31865;
 0x28abbec7c9caa428c519415063a6f2d5e1a0d349e3061f05c40ef35803686d42;
 0x3a8e10fe7fabee8686830b8234275a3abf3cf888d9ac500bfc643c47d476c3a;
 0x18c2e2dc3d8b832d050468b7a71e26bc0d6e887165176ed06c07fbecd3d15a5c;
 0xd50f1334b2bcbc0cdb0117a17c5542080751590a269f4530441ee1a428cf53d;
 0x13806f8807551b28f4a063f853d51c621cf08b2f67259b03c7b1b10734945688;
 0x2b08fe6c94ebbbcaa380b0dd6bf50430c5bead290a5cefef3e75aeaeaf7b63fd;
 0x20196101b753985b8d81c33fed2d02bfc0594ed7b25aec355a1efdee746c5633;
 0x3745c143e9794534ba8e09393a84d537e45a0d9f4777e77fbc14d22daa2f067;
 0x23e0047f3bcd71895bdb2030e2656ed5ba74f2340b2cc87626a6739b65b69299;
 0x2b7432db324f5d63ee6df8a327ad7d03752feaea63b8483523e1b1ac50af5356;
 0x3230e5463fa892ae37f38ff6bffcfdb09a881baeb117cd45199c5f78498334e;
 0x6d227987110bba2e393ccee1a5d01fb046f88e9e82c975d69c25505fbe2f7e0;
 0x2137c2037b936b9af605dda34fe4424a2f095aa784956c7e1a8410602381d2e;
 0x1b85811f361794bfad1d365f9278b8ecccae2e29f16e81a4e81f8a76980b06df;
 0x18ce9e29cabc3a88ae1032aa09a664a307f07c41d0d495fd88f4729fa471d83b;
 0x16117eb08d088c3146a297600420e21723b75d24767e3e927a465ce543a442e9;
 0x143137a07224a1f3df382f66ed1eaa0000006ace56412ba51954dcecd725f03e;
 0x104d16d80f93f2955a067d5b615b3169cffa4c95c7bd28c57df7a098608b52cb;
 0x1d486d6cc1ce7b6f2b3aadc680d663e9afed57c6df3948a99edfd8d21f3283e8;
 0x26b9676c3f4be27618037e6b8681c624cc2badc95e3dcc2858f44e4227b90ec5;
 0x1b9d6e78b161f530bc835a17a56ce26bb302ca73846a159744389cba664d9309;
 0x133c6470bb5a345bbb1e3a3650b9a5f39295bcfb97ce888cb775b07188be130e;
 0x2eb4042daaad9726c71a3b6be579dee9df64b6aca59cbcdd4e014ddaf860cc82;
 0x2b7e6bf97ec1a114b17e6bc4b4808ddff15614a70e43318f7840ed715603338f;
 0xa1125917e9750fdb258e4113f2e3beff8cd77b2e4840d2a0a3efae84324f1fd;
 0xe30a774c353a2cbf244d3d014d1a0e5ff0bac5e242673ae33f1bb2030feff68;
 0x28f2406d5b2006a8163fa449cab775337ec435075e08f76dcb360575f1d0f9a8;
 0x2833ed76d81d99573f405e2418760ecbfad333f71b35f293fb3fb2550d32fd32;
 0x1329680ba1700fd38f42d6f88a166d7128ee68baed48025f1bd8273c6d13d5b9;
 0x2e406c465948d552b82b4d0443d9b4393e9d034c1eb96779b25554850f8d582c;
 0x16870864c7481c37732c1226601c0fd0912ecaec9c4986893da2ecf1e7e9bea5;
 0x16f0206a256a1eaf579b789362d74a6df9b4e8f4c3bc43a69d5d84f8e2b86e1b;
 0xd3769821a46417d7c41de7fd8a44cf0e6b03851b33d35f9105b91fd045f4364;
 0x208072d81c7b1e0c7fb8bcf2e372a3a6142d3643084a78bfad3232dbc4d0421b;
 0x1b00364bfd8258bc091a61caf85bdb512a8319ce47c9dce782e62103c2c7a71a;
 0x39d9478f244268c4803f9dd0dd5e63217be3c8118476c3c36c463acecc573cd;
 0x1702787253c770367113ca024f835dbae15b5c16bcb2121cf3d89bf60993d771;
 0xd424c24ab70fe46dc0b70ac44f1560b98a7c179b6fd59f87b51cb1580404f3b;
 0xc8eec67747155b02438d197c9d55437492eae235c05e385f5aff238ecbff493;
 0x19318a85cac2967adc34c434ced1261abf43e1bf1184a43a0897436121191ff7;
 0x100d0e39b0ac4162d13e523a8308b3d1185ff1abc0a44f80aab198f4d4af2e77;
 0x1dc9edb515bd622a09d6f164eaaf2cb987aca23e7a0a79c8e00d02ab44c71cdf;
 0x2cb0a4d99188559afba7226f3a7dc66b1293a6d5dd7ebf396ac96d3bb1b0dc69;
 0x457e9defe2b2e3ace40217181c5cf8a361c3303bae8d1b867e62386ee0aec8d;
 0x27cb603ef3700431472d85ceaca537bcaa301d220e8cd68c8db9b2e1f53e99d2;
 0x2a0f737481bfdbd65f8fa4cb4463e56a31bec6e77c94e27216f4d5aa734df9ed;
 0x88e30685326b92f6007d6efa42d8af737bdf42ec7e1c4d565318181d8295ea0;
 0x185dee7ffc1c09332fc1436f1c6d67eb3c6dccb36bb98177de5f2802302c68a8;
 0x1a3c2ca9dcba78005a28af3b621e50155295f14ac746057dcce986f6368d3d98;
 0x2c899f8d46c18eea46b9b431d69f5449bf5c896b07343a5199e587c748443f7e;
 0x12b7b81c78c7112c7f79de2eba33f1859e77ee9bfe54d5f3ee15bbae2d6b90aa;
 0xa9c41fcacf18941604fb129682761803f162c0e7cc1152f70bb76a28995aee8;
 0xe30a774c353a2cbf244d3d014d1a0e5ff0bac5e242673ae33f1bb2030feff68;
 0x18c2c80c193bf893f8e24328bb79195e1cb8ec5c30fa4d0aeb228c820e7edc8;
 0x840212cc8df69cdec9a5d73b33f77e6630cd08a0462709391407c8857b09be1;
 0x23a2a69b4c1f2a9d5da9bbc185ddfc88facc9958428e06fba83d67a6bb7cca8e;
 0x2990a00237ce280ba705df85715600a7d425d4ebe2b13ed3b42b1b44ae48fe01;
 0x268d4b3af37b5f5ec11836ac54c1ced9c569390d0463c316c2caaf71ff452c50;
 0x151286c34d2d1a88fc9f696e6c762e833309a6710e03831212d317296b1c211c;
 0x5a0f37b771fcb8d26bea09722510af9bf510ae84c5f0106d3824aa274e80f4c;
 0x2186448573dabfd800c596cf64703bb0bb45ef5b8a91fa21009862ae3aae0c0;
 0x27ac5eed415340d9907c6b414708cde2b99de1a550be1c26d6ef95c6ed5fb9ac;
 0x118baf60eb743773cde629142c30f86d49d633c5879f1977aeb8496971b3b956;
 0x2206f4af9dc21a5e94a00775629d9eb46a104ecaf0d2188122187fbd9c5f666e;
 0x1874fa5cd6fedd8dce56a38552b35512bbbc6ca56a4bc6410406ad149bd30589;
 0xf22dcdbfea00f4bc89dbfeac7b3dee60b16ee9a74f13588f5879ba714c827aa;
 0xedf94bf49c040df972e27701e16229766d84197b29f023406564e32cfd8358b;
 0x2d24ceb96532b06e751d109a7efcd29ba741e61e3472bece30c7128c47042813;
 0x26fb8b8eb2d90ed4886b9982bd3255b9df4690f84047ccd4bdf21810720bda44;
 0x1952641fff4b577803eac12d290acc39f4728e3fc086f3f76313fb2b78da5b20;
 0x2233ba51923c10394d1ef8718a6e82d84d9054de8c8498bd05d52787faa25e32;
 0x10550f7d00d83f1e7fb7e1c9772f545e32e0a60ca3ba0ae168c750147df29eec;
 0x7e5e890c3e62c5109e3790d2bd1406f8425883abfdde19cbba3b5aa7b7f2bfe;
 0xd611acfe2f91f645a07af0ed66ea813d7395b09b4e4b3cb92afc27a31e7cfb6;
 0x1fc4f96fd7c7a69fee8092b6d11c7bada79e851324da48e658a166d00e66820c;
 0x10b23d2c5bd7e976228e19064ff33921faa59f2eb4c8652d39546479d26ecb7a;
 0x2f21166be2ed1b2da47425d6bbf4ea1f2c5aac82b83265913f6ea70a3321cdf0;
 0x2ab0952fb29bbeb0d5728f07aa4d67431c1d3c348a0f1db6126e47cbefdde394;
 0x2a10c76f857e47245d3c145ce70c87a1995448579647698c122d3c7f8087639b;
 0xe30a774c353a2cbf244d3d014d1a0e5ff0bac5e242673ae33f1bb2030feff68;
 0xe8bed4d86934cc84383480e2301331becf2a8756e9098c8a5541d39b3be2084;
 0xbdb68bb05cbd1a32bea32b8daee97ede7a999c31e66621b4ecc57e806e9b68b;
 0x1c68215101419d83d15a0260a0d19456d8a4d552edcef12b8eb3c8d0fce018b6;
 0x14c45f6a32e995585ac81545545d2803fdd9cd0fa462a89f2cc8d2f2869289fe;
 0x3c63147df05188262fe56d1991f872b8069a6c07b7358d166003ab422a2bf67;
 0x27b093996711ee7e4d1d6566008eb46b53bc45925a385ba64c4b314e68f5f939;
 0x1a67fc8776cf402c94587340f50ff6a0037570c50f24daf71d3b14f12c37515a;
 0x368384bc98a519dd78434f63f92be511aa6ebe497a0f202c40dad53cc9ac41d;
 0x1cb8fa7ce16b44e38432742589d4857c290e41ddecf1c04d19475381588dbe15;
 0x23597b850f364b4569de68f1ac728565dc30fa8ca25fbc7cb04de5d7c4b97c62;
 0xdd8ff19d5e1308fe4266a519030fcbe2a9dad492bf87320fee1b56378548b74;
 0x20feb7de1a5e96b834f33f0cfd2be704639c024c4d40b2e130272ee52abd43b1;
 0x20885682bab854ad9b308b29e93bcd9744b30a32a86b43656eb9eb398958c569;
 0x19d3a25bcaa553994b945b1966f0e88877b49a0eba7cfb7436425ac980d1f4b1;
 0x2ac8cfd84802b67174c30e48b6b805af5ae5c0e308beb82cf3734fab1cebda79;
 0xe7309eb986b717f72684842ee44266078aa935820e854ecc26e86b304a3aaf8;
 0x2bf7eab7ccb382e902533c265b264ffa63278fa298fd28467cd075a7e3bc332e;
 0x83dd2953c55d5c2b9f2835c418fabe9f31d712601bb68964101149a09100404;
 0x714ed30fb5590de5189a271e1a8c643e52ab0e5f138671efefe328d85eee14b;
 0x21148f9fd3b0722bd321a3f3fb59dfb18dec828c71a820e50e2dc0b77ba06c28;
 0x2232e4d97bfb4af6fa023ed73bdf899e040c85e086ec61f64d9e76bc8aefda1e;
 0x2f130c81592d14daa4a108219e2381a3c3d43f9a7fd9407eac791568a7290d97;
 0x1bc3006aeca257aa1e0a79238a6aeca17b61c6dd8c5e38ff259cecc70c6d957b;
 0x1e2cd754d9765e6bf4ee604c3027dd1553e6bc4c96f0a1860de5ec1ed4e7789d;
 0x1b03008489762f18d350e6f59491be94b91125f6d564810b226020fbf1266feb;
 0x4139587c94008d2ae2862f17f4623e00a60f095650f0f954d33e2b3e028c8a3;
 0xe30a774c353a2cbf244d3d014d1a0e5ff0bac5e242673ae33f1bb2030feff68;
 0x2e92d0d003478aad469bcb62a9ca4fc6a4b8b7b54aa20082421047b49526bc1b;
 0x2fa9f127e186da4adc277ed2d0fe8ecf65d7686171b3dd9b5ba57a41d94be782;
 0x16b524b227c91d14ae22fece795ab7b4e0672f93bc0be11a4bfdedba618ec632;
 0x1bae132d3cb67233efb7501a87ef7d5304d43d84795422a5980fef6deb8d9e0f;
 0xd64e85826004f524fa9633ff3dbd2acfe2147df88df435e71935e5184c0b5df;
 0x7a8991e9213182f06e7f27126e583ff1002b732d48fe69898c3dd1854468c4;
 0x78a71ff06f3a7037e3acea1df2f04e326774ddb20d6717052065d5b48e4d9c6;
 0x2bdbcc0653dff0b864ba7c35a2053688b9a13ccf83fc78b5857a91183c634ba0;
 0x135c4770b984ca724061061017f6fac63ce3fd5f42e3271af748221eafa486dc;
 0xbe4b3d77e216a0284da484fa0ec171130980d6648a10e81494264284df500af;
 0x1d33a1eac83aa2e8e33f90bf9ac51bdaa186d7714de7cee4357b5768bdaa03cf;
 0xc80a19a319c0095d10de1473bde0636e199b13b8d838336a0133f86e9fd280c;
 0x1fb00a5d5448228839fca9b108ddf4cbeee2e5c6a7cb8d6bbbb33daf72e5dff0;
 0x3428c5cf5139a60a19d3faabaf6d8571c01242000e216e3e417d37476da91cf;
 0x15313c7636e93c90281b5946d1223bb25d849c6b05a9c6e58e3459d4058b424c;
 0xbe94e5c44e86577fbf39b9db0d3ab08a8e90a14881360a3be8e77b1465d6a08;
 0x215f4fc3b36e8ef41ea226080fa331489bb1f5d5b2e9924b5f419a2900390614;
 0x16b0162d774c50882a9f2739bdb279317918d0f75e2fa75bf24e9ec3f1a21102;
 0x12c30feb12fc441d6dd5059c269074f10a69decc148bd2283dfbe594d2a538a;
 0x1649c52ddf7788ecb2150a1a48aad096b4dcda9f517ab877a11927cc3eb7fe9b;
 0x6edf4bba85eb1927ffaa307aa9385c0e11eff4ba249a8e605d624f35af6f9db;
 0xf61ad25f3641eacf1ca4fcee3830d5222f357f046c474ebdb732e0211e49e40;
 0x2adcc2f96c95a40d796e0c8bddf303d75badc37ac9aa6cd3173b868f6d177dea;
 0xa50edd8bd899b1d15dac22136bd3a3ce00ad0d581188aa6c2db96ff696613ba;
 0x26a9ed9b96681106cac0e7706f4293fe79d078d918f25f07a9243b912f5d5238;
 0x19595ba4019162353cf21250cafa1aa64a7c0597c0d0af5b1de0a18131520439;
 0xe30a774c353a2cbf244d3d014d1a0e5ff0bac5e242673ae33f1bb2030feff68;
 0x969363ad2fc56dedd932a66bf1193a1b96276f16e423f78cfd790850bf93477;
 0xf364b0a5a1b00f7192697f5ca0960680b217e3fee2ccd320cd408fdca0fa7fb;
 0x100fe28b46e80f15e12ef4d5759fddd560f76bf74cee6051f23ab10c8803f474;
 0x2dd0aad73d277f8bc1c76d2133bd8c8a8ba8bbd573bdfc1adce1380345bf233d;
 0x1ca5603c3bd89198d450960c8bef433ae368efe4be568d1f8f63418bc67ba269;
 0x1eb4203b299398722feb50f86e2131f870ab2fee6f726876b9a213a69c8b34c5;
 0x20d3eac3a69ed9d9963de0a1d4b554ce0b5e350033c7aab8742fd258af31392c;
 0x38ba0b5c2b7c3d41293047fb42ed9df347056965c4d73994fd38e0b3d0c3c74;
 0x226c68b53ad316f22f8aa803a90ffb02c489364fcb807ab2a6dae085a2c548e4;
 0x1159ad22fb4656dab10da606d298a856831454bfb237a222fa393a997dada332;
 0x22d898f074eadbe133b38174e7629a3fa47f8c92e8e67f62130a00fa7502b956;
 0xe118395fc451a7aa4612da12097c4372c92f7b978f5af092a4771e09a13343c;
 0x5b91237560989a738bbcf80a2175422656dd27e0f5f96741d141fd19392e462;
 0x1bb3f133c2d5f7930a9decd0caf63f17c5528844db26efc336e5101f1868545c;
 0xa39ee8089241c5cbd69954994abee040ccf43b9510d54a05056194912963bfe;
 0x11d1a72d9666be10fe5fef74e6e06431532f5157ee24ada70683b9f0a586b585;
 0x2a0872f23949f213b46b463ad828919ebe034950429f91fa3bffb275d722b47c;
 0x1da2741d74cfe7a159666231eb9981749a40bde5cea6f1a069dea57cf460ed45;
 0x225046f36d161704c26a8c378e2fa58859a2808f94d5242cdc3c742c530f60be;
 0x2ac5e790d78a3b19e40fb98b247ed9caf78b47d884da4bbd70359482c2f4ac84;
 0x2a9febeb411787c59c6b8e51108aef6d9dc63aa97cb314907602d5f6b702175b;
 0x10519bf4b5d77f8397a4e51ad3dedf5b0dee2b25e08cb5b866eeb2a891e0a6b2;
 0x21e9add284054cb149e67ec3fc4208b9e0f8a8c2011ab17bfb3c4e4419ee700f;
 0x861419b33d1a9e2a944bd86a22a03490fc560a6e3f3922410b1f4ceadbf2fce;
 0x204bee088f716345187c1c25fcfad33eef88a8be606b0441139f03be3d39de21;
 0x21a8509dc07b690f149ace959540eee40d485db5a21e3a2ce9dbe808f621c92f;
 0xe30a774c353a2cbf244d3d014d1a0e5ff0bac5e242673ae33f1bb2030feff68;
 0x2bcc9e799065b89040280d6bfa90d9b0f98ac91d5051d683c4dc19c6d078592e;
 0x2a2af9ccc8cd9b8976ec203de687836e6025e0197a9e756a094168da234c6255;
 0x22cda8a2057a524f13ec0bfd8cf44482691536cecc3218c934ca7f21126903d4;
 0x195abafa1531518d101c427496305c52e3d2c9e5f7192207f23985a15a85b384;
 0x226c92973e2bf06e8800bce486d3b5c5b086e9717d93b79e4084a9a3cbf41dc8;
 0x2d4b19bdffed4790eba5957e4545ccc65ffdc300d945b11fead52f83825cbbd7;
 0x20c83290d5ef608ecbd330a998cde98936060e1fb520652c9d6eb1a57558f91a;
 0x2baadcb57bf46a22bf299c393d1537bf2d612cfdc70413af5e5d8261f87dd73b;
 0xf09875c2570527eb866d31f96e357946cf01307d89962db0c6f16a02097d08d;
 0x2a29246703689c0d7c52136c2b548245b34bd6b6c341ed99c340e114b856e0fc;
 0x2f05d7232622eba1583bf831f6a810ea116f0fd933e142650c58d6af1bcb66c3;
 0x1afe5d1e1b64e7741039d6c26a054b7300ecb7d052d89e8df8ce8f1fdb5289e7;
 0x1925f2484e57a2cf13139ddeddfdc2b9235640c4e40e7332d1d632c724801f88;
 0x7752556340dcd48531bcb144583ec742cf7539c9ac2347363f9636ea060f39e;
 0x43c28a9d6f38ca50f057fa71bb6f07c62295fca2197e056160e93a6c82fc15a;
 0x417aaa17f575f42328eaa4ba22be7207ffe9d26564b42a24b41967f3e3173bd;
 0xe6da876303fbed7ee756fd87a8f3e1636325532adf26bff8910198c92e0caf5;
 0x27fa572643a35732cda21571d390600f9188739764febb8ddaf9c01bca807ff5;
 0x1a510cee95e7b6f4efdba5612e8c5121c1ce9cca1a376d8379a1fdc206a55fc8;
 0x14424c4b3e51ffba1869ff6527ce3ae53dc13cc1ea19ccb5c8792ca6be287753;
 0x21a57d8854d6cae5d0818d294fcd9e1a2dc71691a2e3f9b227fc7889cb72182e;
 0x225cb50db0b73b20058ef3f671fdbd2c0877a0defb8392630a01ceefda042d16;
 0x58641892ea470cfc83e363c5b880eb8263212533f8ba6728527c4636f3e0113;
 0x1f4505746ce4f65004b43f9f0017d2602e1bd44ee569e08fdf832d91531cc2a1;
 0x2a076d8186db2528d94fa47dc41721629bcc2fe83eeedfc433c20e8cf4c3efce;
 0x1dec0d6f62e19a1d2ab02d6c4d6a6d7a1dd1387a4a1fb15edc8622e1a3def5;
 0xe30a774c353a2cbf244d3d014d1a0e5ff0bac5e242673ae33f1bb2030feff68;
 0x2a48253491abad4561b2ca9cd08cc1ce7ae0335240facfa6efb4fc653a48efa4;
 0xcfd514f09e0699217166e20a7eda9b00512b6146af51fc1776dd6980588083a;
 0x1937a11923000d95131baf310078bfeb84b99a77e027e8d0d96201b918132ee9;
 0x303cfb90a228509ecf58fc6e94dcfa0860d206b34b28a8368a3559a57add1cdf;
 0x28930e4b9ec17c58ffa7934c216ab1af55df309d115d0789233f84f2c441a535;
 0x18aabdce0da91d3b644bd5ecaf154ab7148f3c3326cb01b593f8af9efcad0728;
 0x391f2ddcc9bd6fac600eb0c26e0b1a9a27571629e9b00f080d876ee2f1b648;
 0x1d765c20a588ab7217fdda5e01dcccde23dcf9a9cccec4d8f424735f39e25f3b;
 0xd914d807b0fda1cdd76d1955f170ab3616a35ce53516a81e315825f93165905;
 0x22492619b16183d3180c15994c2508c83737ae2a42d968dac85af30392294e7d;
 0x11b3baf3833cd4a6039f2bd42af1633a47f240fb88a7f0ac0902fae2a5be3510;
 0x207c403b77244c8018d8845714e68566216fbfc49acd0107c55ebb88e0de3949;
 0x2c9e431e04871524a5262b21286d04333dedb393a078f2fed92266ac22fefa6a;
 0x1fd093032821a7772421e62b4e3c23a195d27ea4798f9a3f5a6c7d4d2db583e6;
 0x2eaa82b7fd1c061940c2a77bdd2fb653842bf1b0466696b292cd304b490752eb;
 0xf98f710e410dc1552fb69cc85076b89b4fde8f27428a30b58219f52e422d130;
 0x12229b56730ba20a6a52d21bf8f7312696e8cf6537f1f6c50bfdcaaa4ed4a7ed;
 0x1c2fb95b64a0f66b65d9060f1f065bb82ef882af760419aabdc6cd3529431e7d;
 0x2f2fce632964228eef7908478c90107a5dde45af647f2323ad8a612e41c48154;
 0x61849aba4451458f718c3be3f76a38347e512cf422d1f907a82da750dc21478;
 0x2cd60c32d6ee36c374016bd4f1c0b273ff87315f6bfe1dc9a81fa0ecb1264599;
 0xc3e897a8b91c108ad19b152e9842cfb87c4af0aec8dc950e0fa325ed4d69ab;
 0x7a38f888ba67b2150b0e6431ce02408681d2ec80c8daca4c51e65b59d329fff;
 0x1af524a87fddafaad82b5231a1e75e8076c66c44d3b527a259a15422870db619;
 0x1159290a4743365d781e01a0d6bc626832260b07df2d0f288d15c95272eb1f9c;
 0x9e51cd15182d20f87b09cf6966f9268578c3d9cc58b3e7f981f67502f9478e2;
 0xe30a774c353a2cbf244d3d014d1a0e5ff0bac5e242673ae33f1bb2030feff68;
 0xb0bceee45e31b08c0548711d59c548f51b7d1a80ccefe6599b5dbad0db4b738;
 0x241c6fed92ae4e391bafe3af5103035f9fc1f727a6dc8ee5f61ba9b1e3eadb9f;
 0x26aefffc4043b22cedde88f2bce76faf6fb3c21b4eda9d682c14dba06fb9e87a;
 0x2673296dd62cd736659080d030b98914f6f799752403ba5c29bf9af6afccc8f1;
 0x22ca97c4de769662b071f7cd75657c15e9cb20d744edd0a7911d78b6a4aaabe8;
 0x188fa74b7eda792dc3660885901c82d57050e74b09a12b5f346d34e1e5f67614;
 0xea0166cc4c51c2252e4f3dc92fcf33a03964a03050f9f125b87a7fe074dfea6;
 0x2134da7fb4f089a21363011b08fb72aaa8fe767c618bdf08d7b87810d5fdb594;
 0x2be62c9234dc7d3db66ac72c758b15628df1cdb781c90d0f2f23de2a29005105;
 0x282ae8812d729f2eff86f2ec478a65707c4b63d33443bf6d8f872569c40e442b;
 0x189e7984fa57098dd737293a19d6f60971ea7c74fec600b4e6fa20cc314f015b;
 0x1e20cd3dbf4a75643421e4fa713f5ceaa35ed0197150182f653ae9663a9e45c3;
 0x23bd66cfdc54f92e0d532ff413a2e2ff3cf6f561a344463e5e0a0a8c5a010304;
 0x42657182ee4b72e3e4408528c19b71ccf1d4f5f38acb0e5a5efd641cdfc6b7f;
 0xa11abc1daf1ff8ed6afb6b0a6370bd55fbbe7507f1da568f39b2ab9dbb6e340;
 0x200edeab8b94daf3135eb6046388ccf8c7140d91873d2fef04b9c60f509c7de7;
 0x58546b9e80b2dc22250fe5c53d66aa14be31d5d92b5c04a05e3525810fc78a8;
 0x1670b9e07e02e88814eb40a43d83bdc010739e9ad6799c10bba24e1f40b8afd1;
 0x1bf39f979c015af4af119c137d5c8a334ed0bd0d7f89626d4f79ef4793b91324;
 0xe19dcdf5b4a1ae01fcb6c6579db3fb615bf176d53e6ad047ccf905861acd584;
 0x28f22053f72ea545761afc9557c84b05c6f736ebe7bfd2c8c5c044d09bbd4d4;
 0x56e7854a96d6bffb29945d76b51fb9e81f5f19ad767171c568b742e926054c9;
 0x2aecacf169f418d8f47472db625ac3bdb5403667c61457666d4238bbf39d6638;
 0x15b04e62d4167a166f14364bed196d1d0e49c8ccde5bd560e261600dda4d3c3f;
 0x15f88c4b31508718af67c6e3c30cf3cf594fbf481a837e80e89156d9c2d1be74;
 0x14e6645c7627e744f9e6140679c863325d1d95e1e4786e573a498b0a790b431;
 0xe30a774c353a2cbf244d3d014d1a0e5ff0bac5e242673ae33f1bb2030feff68;
 0x1afd97fac1f6e77c5cfe4bce848b93051a26a3b7d3d6b18dda048863a013cce4;
 0xdf68cfb65503007db81044af06d38ce63fda1f569a7057f1848ee4597d87c01;
 0x1086b32477529f9476fa324d6d9552bbab58956c2e2095548dd1bb20e9be078;
 0x1611046b126acf5767561c32d31a36c5070d645bdf08684240a72b9832c3bf2a;
 0x1bf3eb5fbf1e5bbde992521837a8d3a15a187921832989b4d357a1b2ced9b36d;
 0x799a349b10cdde87ae631ad3959d6f9664ce23ee91e010679ddcc6017ef120e;
 0xc55d0ca35aa0d453acbdd8993d05b479e13fce555b634fc6d3e470035b0de8;
 0x20444c1bf67d6ce8afb0a20e79d6b691bac54bcb31ce4182b1579ee21ea9fc8a;
 0x22e8f59cbb4f92639cf517fd119eb650704b00e6eb3f58e92eb31e713c1b91aa;
 0x1b4841aeb035b2e896d64b59b47873cb9c74cd05ba12436e9d1865a4a74e8be7;
 0x133d49d56c7809b942db891b424b30d56ca44ee7f73aa028a5e577e82f509968;
 0x698faf29f83281d3fd421c78ebe694cf5eb371e29a09354741c59f4a4abc6ae;
 0x9cf68b95e1a447226a8c39440513f965a41fff89a1e1618c70ae4be00e92c66;
 0x57a0141a7ba203881e5a90e6d422e6d9001eac737fd9860344191026c5fe545;
 0x1b71aca0b352c5ee4eb06dea7f4202fa1b908f08e2be55dc0834a1a873607597;
 0x142915304bb01cec99a22a96d1af31c3133829bea002ae98d7011fa1516160d2;
 0x4aad51b11363b30a26aef78b4af431dd8bd65dececfcd1a6673d8f96a0e6c16;
 0xb63c18b78503b6a47a88f4d54c4da7a9c23fe346de39a8884224a2a85a9511a;
 0xfe10d1f3c9b406bfb832e85b8a844c5c4dac7398f2dc3ce2541dfa71260d259;
 0x2a42420809746917645806d70631564f61103186f9cc644df5b7b0ee4e6a27d5;
 0x5a66c6f50d393da791e5768de874774d066f0874118f0f417b6a036a657dcb9;
 0x21a4d71862dccb7c0a0a9b80945c5be92307f147f29917684378111cdbe9d2fd;
 0x46f855f83e16426aed3c81f5a2f7f92bec7ceb71e3dc7e2453514c1081ca202;
 0x185eb4c67d4f479827980a96827cdb79988cdf8d31c2f8d2532765f4155cbef7;
 0x2a4294d3919b5debce649b27b63f40e5406b2f044e1d41d58411bc00719d3e7c;
 0x2a802da0e4d59259bbaa7dc3227ea2d725f6cce50332661f0837cfb87af4af94;
 0xe30a774c353a2cbf244d3d014d1a0e5ff0bac5e242673ae33f1bb2030feff68;
 0x154eb8f04d175057207d617931b51ba18ec3c830e1afa755e8ade5bfa71c1d44;
 0x1c5fbb238cd09b4ad76154a2fadb7e7d732bd534603ff3cbbee8031cdde7b994;
 0x1c3a7fe14c3ef7f03426643cca0e6faad2806f9dee971ba41c0103d42f4f116a;
 0x928a9730b25d647c4563b4a7273307c94c347565eee36c781c3b8adc53973f3;
 0x2aefe39f4fea948261cdbe0accc5c7ccff6714fd741fbdcd6e298249560dd97a;
 0x1feadf4aecbf7c7f1f526d0ab1ae1513f1b4fc8731187f9b65713377c9062037;
 0xcd2f2d4d826d98ce3bf08da02ad5866f34c9b43f2068da4e5b33378d93c4c24;
 0x2e7b56a6409134126d411b560967c46ddf3a46fa47dec457fb82a070bd448b05;
 0x23ee37d1d1e1f8a3b10680bdcabcb89268a4958051e8230d14a0605af857d190;
 0x1a910c02479a6795981001f40273c702cfbdcc1c00fd03de1f8057bf2809873a;
 0x2786abcea27c34cf4ff274769e51787932001c0640033a7c89914f44bca3297f;
 0xb27d402fc69e2f23ef8e60420a38e429da969f038cfceedb073e12f28a5a260;
 0x5c8f462872ea76897742babd1099b0aca77864a1b165eaeb8dcbb3fbfb95286;
 0xd29130c3cd0ab2358ab1683597256a2f7ee611376b9329b8aed30f69505bda1;
 0x167beb74665c1a02b90450914870d4480472b6b2bd22563750afafe3de5fef8f;
 0x2574275c7bc58879004d63dd307638b057eb9bf99388ad4788659f957ef5623;
 0x1bafe22329c00fceba1e48c5f61bdc519b20eb352e183859b2434eba6cbfc4f;
 0x40f25fb048f262d0b88e5a557234c4f35ab898d104cb2eb960905e1e8ba5a80;
 0x2fc7cf259a1474e83243039afef87ae87f1a07bd433405084e3e4241c413aecf;
 0x30144980af35b582d434cab99e08835bb09644dad47fbe036aefd9b19b713ae1;
 0x140f2ab47ba1a08e4ff8c38a8245b79fc20c2916fc3470e4eaeb0b3654b4a6d8;
 0x97cb1acd89b5b12e82e14571e4a4ef516f5c2693f0bf70d4c05cd4efc72dd9f;
 0x30435adf792ba5a8a2c9fb599c91a1de531c7fa809f3fc364761e8e68f3c99de;
 0x17acbbffacec919a115cdc4c303f9335febbb1dad12f0a1825fd41359ef73491;
 0x45ac0782c8edd00c6d7c0eb594b799de598bf538c80f467fb7a4eb1f6b01d85;
 0x1e15d1be8d2281c6f25efc56b33d72bfb59a61bd91518a3de93caf2a357d0256;
 0xe30a774c353a2cbf244d3d014d1a0e5ff0bac5e242673ae33f1bb2030feff68;
 0x125b96c678d2ef181f7e4bfbb795150eedb5b46a913d6571d1b204790a2c7b0f;
 0x130be605c83bc01c1fa0e64c79ee75b27d4b4efd892368f66959cebd8ef1d79e;
 0x3051c6918396878ef98b13b7c484c6695a093ad607bfdcd87f01b79d420e731d;
 0x2635445a3f66389b4638ebb81a36f4ceb210d5fc5466209ec215c08023aca95f;
 0x10bce0fbd3a8796152759cc25f72601dcd99b699a8c34686e43fd2b6d1b27d89;
 0x17dae8299eebde0062043e9e93267fd1b38d6f0bcde5827c10822b137e4bbca4;
 0x2664e95646ec5ed0536a1ae2ffc84165b5a3c295c21e58606c95037ab746a878;
 0x2b8b53c8e90382786b60fa50994f281866ace7a311a40af07b633f3c30fc7776;
 0x16ae53f5d4c63a81f4fd487793eaf5cd2cb03e3c8236be7ccab8c20372f911f8;
 0x127dad336628ad2bc403718c4983c136f34cbfafdf3e45c616af7c7e1ca8793d;
 0x10a10801dfd21422b4f5a264c2eff2121e0f716512a9dde5e6371eab17e6e7f8;
 0xac6189eec8ef4ce3928d7756fac44685b425ce64bee3d4852698709e769f45d;
 0x6f49e55c72efdc84f7ff6306157d770310b1c4e6e509ba3919b9466bdede393;
 0xad1247adf1e4bc8665343425bee4d3f35429c54d6bf4a8ec3b16dfdd1dd3a45;
 0x9f989c92995f86daf29a92cfeeadce5f105a0ae272b2253bb2de3758a771c26;
 0x1fef396daa237f6467f62441a55b75cb5a09fa94cb1fdb270ac309487fa682be;
 0x130d74deb88099e35362801333bf7fae8abf96165fae4b8179579761ae1de1d4;
 0x1b1e63b7d8b5f8d9612dc59e1aa9422f962761a992079a8e8bfc91695ca204bf;
 0x2d5d5c8feaed5dec95fb9d6674066c03d6cbd0d584084827214b09553adddbd3;
 0x2278a2b596a3d0af0a9365f954adbdd2c8a1514cc906369d3b0402811c952a48;
 0x11291006cc6718940fff0378cb6cefa09db4b7b7c84d447ab132a7a47573babb;
 0x1e0bf04d48d54e8cbe871bcdbfe619ed38fe69bf9d2a61fb5def330b2d7f4078;
 0x2b0907cd35c62152c10e47e930dca88d4b12c5afa7e2836c2637ae73500b765e;
 0x2e5051c91020bf6c73339f653843436ce182cfd487c02a16578cfc96d27c31cf;
 0x1227e0c86ab02adcaf01cfc56cffc815efeab33ece8c164c31bba50b28477b13;
 0x103b328f8e9fef02f340e3f679d91d9508bb1eed21d98d569a41583aab595707;
 0xe30a774c353a2cbf244d3d014d1a0e5ff0bac5e242673ae33f1bb2030feff68;
 0x1e3d52642e16240dd7e2b0ee21cf4b3b4cc10c805fe52009dc7520457180945c;
 0x1fde6f3b98df6104d07b84a703494892d8fd21cce53cfe9ea41c4ac6e5125269;
 0x6934a63e04749754a1980371301caa1bc00ce38505933b1ed0e085a5755856e;
 0x2897d663791c69c9bfe9b313759be1cea16299e667c3acb3e9f18079d39209b4;
 0x2f30ba6752d0900a64be8d6be8b718eda67cf96af95a1e0dc91e720dde3eca49;
 0x219898fe3438a5e5bdc5a79611084e0977456513586fde2b23b5e8e34d7eb7dc;
 0xd90f0afc59b011d2949f998d7c5e4c2a53953aef58f971a458704fd88f6a27f;
 0xf21f3710b4f641ddfdfcbb67d13f845216ed16a0f1c0b450acb82e81c85a93d;
 0x2eb036baa89d926515281aba071798e7397122fb51f4504e07b6acccbaa17af5;
 0x1adb3f0ad3c7e2300c717a6674e22ffa2611978d8c29e3d21012fbe7606ade6;
 0x11e1d1fe7ad3865581a1a8930698e676212b04c64773601034223475f91a7b69;
 0x14648747b8bb5b1e8b433222a964b95c4e143f70d6b26e6aa620e1c57c842ed6;
 0x14558bf2daf718b30756ccb88e3890ec47f25b4b5e087cf9d47f33423e97a902;
 0x2e6d0bac325dda6331e2117c682066a1be931e8b6bf889e5aa8f716bc14358b;
 0x1bbe690c183e54f281bfb4bd843afb3961bd3e428c81dcfdaeb8220a3858736d;
 0x23528de8742f3238128e65c88122a5e74f26fb2c1162fdba69f65f7d971d52c0;
 0x13e395afe32392f6fd5c4c5c728eae324d9c247649a6c3412475c4d04c6b0ea7;
 0x1ff38b45c4e5b8682a7357723d20949f7b792ec55dfca74c72dcb53fe68c92fe;
 0x245ded3dbd6c3db094bc040def9c4e8a96e67498f9923224388fcbb441109dfb;
 0x1f6ec4aeaf3545dbe65de9602ff4a22c48911ca6647bcc632c857ffc99a42d99;
 0x2431b237299f1a5e8ef22569cf8db020247dd0e7a298716462106e5519d3fdfb;
 0x2e4939b015f27fdc938f5f1ca55e5d7e912045ecbdcffedeefcf37ac77ddbe5a;
 0x26c061cde477c7011c04505b0126eff13fa555d248df1968878956209d36e031;
 0x1c6f21300d13f52bed69b2aeb3dba9760a94ed945673e3283848cfa5c4555c44;
 0xaecfdb86a64315429605fd463ed664f224d10b2e0a32d35d3a5acab914655b4;
 0x25a11f201fcfa64aede18e05fb19be93cfb4c15587759d5e5110420a267a44b7;
 0xe30a774c353a2cbf244d3d014d1a0e5ff0bac5e242673ae33f1bb2030feff68;
 0x133fbbd86858b9143bcc298a4d783e5b8b4ffc4290d1d61e87d1ce5fa4f9856a;
 0x2cf3bb0c00e204f18bbac1f7f093b9febf2ca7542f44072be70cd915d2c43b53;
 0x13c1a4bbd3a938e8d0399ff791d86962d7ef1504597419c2c00f421d4459c55e;
 0x1b008db98dcf53332b67c287841ed73838203b2d8598187413c17308bd8cbe30;
 0x1e42bc2844c8f32ca38ba9a1d029c7250d75a237eadd2d40969ed5674ff88fab;
 0x5e9909d9b2a8645974d54fd3ce3e734fc0b99236a2a590e6fc564fa00c806d2;
 0x1e26282b7dbf93f3aab257ba1e13eaac39ab22fc81b7252c079a192c113ed7f4;
 0x102a6b3d3a90d1f67e639a27e76023612e096c02df65bf64110ba239361e35e9;
 0x1f8d425b3b39db5096f4897d43838bb2cc77b4ed0f1d99a7208fdb45faa3b3d7;
 0x3d122f74d869433e1457806b82f38cd91103972e456ced5ca9fbc375497ca3c;
 0x17943c0d333da5d18d0856b442553e882c75af5684f2a8127a9d52123b350c43;
 0x1cf484412484df0cb49e3916db14d6bed50eee93dfdfdd081480da21b5388ce1;
 0x3e41d466271e7fc632ee7e0acd2c4c446957175ebebf55463ef9e16f48bb9f5;
 0x2abd2c1f5f2ee158080419092b91d64876bb73f9aa94d20824e06448278f88c6;
 0x1e979043b35e1d57826c8f7192a1866ce1b287772cb266eddbd177b3c6186d8e;
 0xbdad4e92dc796512c4daf27a755b5c5dc6c666084c648c4bbff65ff662c667c;
 0x305dfb6283eebb8f5bef8a33e0dad282ca92ba895e85853d210c7cc82f56aedb;
 0x273238f0bf3b029f5064ad1beb0129b9539edf1ab828a4d113fa7652f12fd273;
 0x14b12b9068950f98de141ba4b38cddb1e398b0093d7e118651d518a7980cf6e8;
 0x3015c78de17c6ccb86e47c1ef08680b12b948b5a56da8a371e6e2e0147c42f51;
 0x1989f7bfdc360a572379c14223f75aebdf04254a589c9a9aea6d80e020e13a21;
 0x2a65e0ea8cc0ea69c631c16bd174828cc79e80143a51c35a8dcddc6a36e7e717;
 0x718f6894c8d87898d8db2c9e3fe7e924b9e31221235f56a11d91c64e4d65fac;
 0x26fcf8cceb403f4ba44219c27d6e595b794f4fa99db88133fe1a031cfd32b498;
 0x78d5c5f6e5f3e7bc47044a82bab78a85279d741c5f9d5c8f3522d34da3d8b99;
 0x8f0b5ea35e699ebc6443284da3218e73f20e8c7eefa51962ed8f0706db54bdd;
 0xe30a774c353a2cbf244d3d014d1a0e5ff0bac5e242673ae33f1bb2030feff68;
 0xfb6c5b68b5bf3fc0bf849c18e813e610eee228716ce01fad6f05e005802d35c;
 0xc602aae4b39cd1a84195fc795b9f4650d45b791afe4368689339630feffbc6;
 0x110455540d38fc9c7ae7fece8bcfeda5602ca72823a8162cc4edf21ff54867bd;
 0xb380e9795f1ae5eef24029c17d3c2f1b77f2dfd1de38d84e4c95a344070ec48;
 0x2ecac08767288364ad3ab00f106c9d45fe106b02e624bdbf2bda3f92739ff03e;
 0x1743f85f877aa121f1a8ebde66a3ced16e0e2c61cfea1f89f8f050d872929332;
 0x4d0cbd1d1dd0a87474e35d15e860233328e67057c1398d9921f930db1c32b97;
 0x2d22b693ec70adb123adb300d69ae39ccdfe6873afbe66fbfed0fd1170f0e49c;
 0xfc8ea8eec07829ad468e18f804cb685425a7f56702c78bf3ef9ce424d2ff611;
 0xf4aa2f3aad32e709a407a80affce97c751d6d188b6c9ed4dd13bffe6ecdee76;
 0x5374852d2261dadf1e1404368b67bf8377399ab2a4371ac71ec0c6ec525150c;
 0x496f544992e33a4f0c52c8406887623656aad3f25ef8feb0f485903e94a2260;
 0x18a9a16e6ed044b20459820025be1a938747b97db166552581a0372127a75ef9;
 0xa2f1c011a921def0baeecda662d0cd96c5d54efccc20897ff67bc18e6359636;
 0x22aec007a72e506f9b0708c0dcadd6a95a61bdde90849d9fa0f7d6ca4900252d;
 0x12f1607ee6f4c110aaa5575fe992f47e024df0955ab3a985ff5797c7447db36c;
 0x8a0e21aebd5298400802ad68a96d644378b580aed9c46cb70bc39408bb5d961;
 0x77214bdfbecbffecf5bf823ee5dce410483c9af4906d7e5e3a6966e446924c0;
 0xd8a51d698768c1f62ff879f0e478e98f1157ffc88ccc234f8322449689ac79d;
 0x2ca7d5473e3a7a69e048db0b7eaf1cbe2d15bd97dd62c088cc222af396daf89b;
 0x1db504c331d3895a78674b2f685fcab2081482fb20b16843abd4c34f91e754c2;
 0x226760b82659919d5795bb171b21f92fdf931045381c5f341d772a6018d78f27;
 0x2c6ee4af1e71f1f46a56943cd1a40ae76de4db5447ce6603eae52581f81b35cd;
 0x18f11a6b7218237066ddf0f730b11e52404b6418028f591d2b03dde94bf407d8;
 0x1c726bc6da34803fc45168badccfbd6d0e90838303b5256be9f3e29ff5f6b2a7;
 0x230da928c59a36907165396cc12f5155e3358dbb891941e3a70d239183132785;
 0xe30a774c353a2cbf244d3d014d1a0e5ff0bac5e242673ae33f1bb2030feff68;
 0xa6958be4b971b6fb712329b991d9c28ff15be0c1eae89cdd4610ce27a2c7c12;
 0x18fb79983ed105bbab4fffc7c6c532808676e702d5d4deeb82ac9bf3ae9118c9;
 0x2cf2b459fd8fbeea84fe88a081b89db2e7b502d94d149126f6a532831e31764e;
 0x24879d31eb0e13c6968d486a3bb01ebafbfe6fb47a67f3634d1294334d834e5;
 0xb2103302dbc0c7c6c86efa0fc45ccff544cf89e07377b37bd81b2e8453d953b;
 0x2e2e1fc4c5443e2ee84483bb71d753ac2c70e0993cb280e0d6f6e420763fb7fe;
 0x1a9e105d58a6f8fca7fb505e6240b2fa3f7d84d1bdf1dc5d60baed683049b488;
 0x2a1042ce88edc0b73ef4c2c44c12d6d9ca419b2f8144c4af86ed8df0379f02e4;
 0xda87077919cafe94aba4f234b6fb078f93704bb4155e9a8d55f4c7c8b887529;
 0x10df86ad83b48800b7b66fec0843926e7d958f1f69e0c2ce3305a5aad0d6b8ba;
 0x5ca67cbd464f830c5633b84cf3d172f88acb852692358e4bed0a5b69fa194e7;
 0x6f1f54b5acc18eb09f7ac569c51177a0248e9e8e9da408cda7f06826cf19cad;
 0xedcfcb405af9c2132a3992aed66c0d945d01ef726888c65a260f3c56f208b2d;
 0x3009525f3f6c8641daa9fce108036bee7bd265e758ad202810cd526101201528;
 0x943a87f4b786f072e9637b5b58e280b0ef10cf747cf13729fd4edcb5c09d76e;
 0x2fcfcd4647f625c42f4c129dc9d782771c761134be63d3140279960e6b5e3223;
 0x12afa4b24ee867bc58bc57d2e55195215bdfc1f29d541b09bf8f1311d8dcdb7a;
 0x27721fde56e70f248964e39185a35af7c38e46d8f86a160b508fd63b623489b0;
 0x2bc75c98655a355c8ef7d48b0db3654bb2c579f0fdccdcee9cf277f2af834077;
 0x1f49b0d6af4bba3a9d89764eb3fc5a63da95b559607ae0df206034450e40195f;
 0x1ca12480c0ab186896c01ecc28e0a41014814b9a28de45fa0b79b90a7cc8cf9;
 0x1040b4f3bbeedbd2ffafba407c214cdd8abd6555cb54d590f2edea7145d9a48b;
 0x131f9b70a247303bf84112dacde19a9b953f26e7274279dc974b643314f51d61;
 0x102a78fe962133773dcdc7e30a00f87fcf3a3ef135fe4f01f9a9517b572e0379;
 0x1389adcc893fb4478e38b3f3477b8c23c41382aa0bffed4b8a54f8c87ccc6285;
 0x59eb07efee98970dd36e2857a183c43d6ee9560b3c90fe54515a5dbe55621b;
 0xe30a774c353a2cbf244d3d014d1a0e5ff0bac5e242673ae33f1bb2030feff68;
 0x2ff7ccae4b6aed16c52d5cd2b2be44d66968914941d91a3c9c4d38d5c76ff881;
 0x27404d8154cb43997a5d6576fa461096c9ac1d885a17188bb9d7417803697661;
 0x41f16639e3d600cb3859f701e46e5e38b88927dc20e429030894d0d2bfa5f07;
 0x280cbce70a5f719bdf3096cecac201b2c79693c13f01d40af06b7dae353685a9;
 0xaeba2eab11f80d6527144cb8f13afaf2ec9cb4c55ef424bd00e2ac6f09cbbcf;
 0x11473e38a5168c35404178e0c40b35a7b2e49584246518c521375af70e99e194;
 0xdb9935eab2a555400c37dcf884cb2ccf1226c4d931ad3167493ff0a272fada4;
 0xd9a481cfa6ef0c5c441c790cb8c9b30e2be0adfd2723ea5c1cf0b962dc7a40b;
 0x2e8fefe6bb8a391222b65341bd25b01b02ce0d88b65a496a9c59abaf25ca0b5d;
 0x19dad0c5b078ac863acab028bede54e6c1f5d8f4b8c8172176ccfb53740bb10b;
 0x1dcdd9fbaeea72955e6752f92205e88e094fc5aa4e9b75fa0e173e0425a95e28;
 0x125eb35ed67f035219169de7f612c1bb3eb788e3740b9054ec89352aab2e506;
 0x1f64f0f4b2802abd8f6ec78b6a061bd3345ddd898998ab9160a12ba55f997760;
 0x1fb921d2f30b13504d31f42d0cbc3b3e83714a37353246e6426f2a8da6d26c3d;
 0x241438f09da43d99917952c9f600d47a3f30b79b5ec80924f4427326d284abae;
 0x2ca504ece10e731645d09ebe52614c3e0fe99679b4e210297887f45f99f055d;
 0xef909466b00c00c4d39e13ce788fce28c32eb73e1e4575f396110cd78c690ca;
 0x28aa2ad31f21f32f1b898fd025f6a9d34abd75cbcf29694cc35178717db80d69;
 0x2e7e619b01a79ef24869bb8a57f0c1668ace7d7b721e253167ad661f279f67be;
 0x10925878a22951d216c53068b9e2b8d2a2d4c235ee483963c68e75b246392d9a;
 0x25bf71cbaa22e93f533d72118b04e187d20eaf3c07c96b86a857e4435e870c2d;
 0x2c12c98fe7f663cc207ffb753b9c099ddc0de2d774771a7c84fdb379fbadb65b;
 0x2879d4cfc6efd84feb0d05d1546968f98e11c38374db3f72b753412d2cf2e3f9;
 0x213c205c362aa0d41804809efa5f53a93c4c26ac9d1e91ecd081922fae6346ef;
 0x1a65b2fcd5d9c0db8dad898a002a9c11ec40412378c107a8aa0ff70d7416d3aa;
 0xd6ad0b286a355b4026058b97cc6a952a6ca1ae3ae23641e81bcb757831405f6;
 0xe30a774c353a2cbf244d3d014d1a0e5ff0bac5e242673ae33f1bb2030feff68;
 0x13b5aadba85b01644fae9e2e542b8ebd5003686bc751399421a798a1ffac6d84;
 0x207a44c8e2044f2f2e6953c2bf4568e8abd69824f301cca26972266e0e18577c;
 0x20366c61e53dc8718125d04f64ff70881d22e856a3f4d9224cf8633143a9555f;
 0x7dd546b57abb0a5f0fc753b8a97526ef3417b06a79f30e5a2f2833d205bd29b;
 0xbb6251b7bbceeedb0b366e3fb117676d1a31802d373e10117cb07c8ef4abac3;
 0xc19b0d2fc9236505c7c7b6a4b1bea3f91f56b56d2d4d6b0dda2b6e0f428777e;
 0x3238596803492252af333365adde8b43ba1ea6722b0bef2d89eb8b215e7a568;
 0x119c3970cc386d6f0e39d351d0d1f308c857c3547373173d673b72c5d555fc96;
 0x13574c0b39382b249280ca5e86593852ad435417157fcc4a7d7af23b1425bf3;
 0x2c41dfb547330e3cd1ab36dcd14b2b65f6db6bff0cf3fc858d7b4555e1ad2c87;
 0x151ac386d35911a265199613ddf17d28ccad77333887120cd6ec04b1ae5d7844;
 0x2142f184dad54cfab54f49734a6dc8e858cdea2a2039dfdd261319fbd8ed1396;
 0x232960591ef4ac647c6f02bd38cd0b4e0f26293eb1bbe703603714676de7e4ef;
 0x2d33e28f33c118eaa8c9a50322e0796a657acca1822b9caa8368199501a577d9;
 0x12da53680185973a1018f3c8ebda54b5fdbd196a2b192f27dd4e13bda2530a6c;
 0x2cea06b27f51acf0607fc354f64c2c3687f86bcf5616dbe9e56385ed5f7246f1;
 0x12ae9658e5e33252bbc1761824ec8131cddd4f006d354f1dcbd17c6133fd84ea;
 0x1500265313eafa13e4db72b664aa06998f7d0f08603f3b59a2d4109263c8668d;
 0x121cb82b95c9461189b38b4f9d1535debbe5e49954ed684767d191d8ffd5d613;
 0x2792672831f5282bcdb13cb16e9049386e09bc11a74c1b34c2ae3a52a3d69dca;
 0x9c49e3fde0a20b1aaa8e0cfea69eb95377ad867be9df04c11fa23e9e559ca3d;
 0x2b2ef2807d34d975db74f912e385f76efedd545addecb765209f531b82c957df;
 0x7a76c4304adb61e8611d9356708e26b98920a0a3fc54bf7e8341e9e189e365b;
 0x1175aab1e1215106386e7d6ab6e8c8ab11898648556d135e9d779d932bd654e6;
 0x95881e72157a04b0e21686523efcc318cd810a2d31afa2c20a49bfa3ceca7da;
 0x1bc2595f9eb575721f2cc048180d6a1dfd39b2c9432c4288b896ff27338a0c15;
 0xe30a774c353a2cbf244d3d014d1a0e5ff0bac5e242673ae33f1bb2030feff68;
 0x2d72542a02d6093f229924f57769054f0c9f2341187cfcb456b25f659cca62ff;
 0x2a00d2a68a415131906040f416d85a4293bfe098ef6c6cad01deb413ede2cec8;
 0x1cb01e5cd271049bb0325eb6957d2e04fe46c4f43b88948edd3b0faea5b69528;
 0x2e83b677673216f321facbd90699c9f22c2e2629191c76f7ef99b51449c8f763;
 0x2575e049e33d2f09c8ced4d3f663f7721007dccad5ef54af1bf0503a545d78c0;
 0x27885d131c5352064f2b1dfd7eccc9c1eb563d86f3d11a4901a4ced089dd2537;
 0xbe09ca0f50c25da57ac348af3c0c51483babda2e62b2c3b55d00f1eab40c7c3;
 0x20ea980b40600cbe365168750117a9d40e156e1e7633ff512573544ee7be34cf;
 0x3f0218ea64202e828409a7c012c47419edcf7ff1c2902792c117fe42756ef64;
 0xe6a42b289d3df7f5355f32dcf2a507735a0b4e6b4ad2ec1dbe976187f62eadf;
 0x224853c3ca29c4fa226d98c4e2497e21000225c6a0e0902b3d801d8522606b2f;
 0xc5295480691ee73d8098e95570a794cff16c70ce743bb8a42dd627715648416;
 0x148645a642117f6c5870fe24306f9b0401ffa1da04908e1aa0f6b9423986badb;
 0xbe448a3f7e892d80d18a4f34e16919f8547536c517b49ca457fc4ec9162a334;
 0x2bc573630f948a668f64606f9128f8f0105c11b08a9dce89aff3b02a00f0a5c8;
 0x2519650010b2b9642414e33338b47f1d33ce4976d19f1fabf8298db70deca1ee;
 0x2825ddb803da718800beef69a8630fc7f3b58206f06c008c9876772d5227736f;
 0x2f2c24da651d81f403fdb4dce59e64a2a6bf17e83f562426a52b79ab5e7401cb;
 0x3bfdef37744dd23f5ac9e47fde12035773eb7a1c666890f3d8115a0c0f1749a;
 0x2df9d9e9d2c54cc87d0cacacc229d561566b56b0cd00a68b31dc706e3f06351b;
 0x14c29bac822f6d9d454c11d35520dea723fd79b06110c8135e178536120a0b8f;
 0x8b6fe4157191851acee98ca63208dda32c9bf73c833dd1caf158e992847a5a;
 0x25a3dfe68d7513c1a26bcda26c412412a2f7ae80cfda7afbf996bc81cfbccc54;
 0x2d3c0299af854fc8e64fde3e0ed04c3bc54292273adb103f74bf623e889691d2;
 0x8cc27272e1668638fe3f85e5ec76f5ee1595328112a949263afc8d1406d3e48;
 0x2aeb2bd0a8da3fcb57f5b428f850f41790fa68f5b54b506794af4db04a30a1d2;
 0xe30a774c353a2cbf244d3d014d1a0e5ff0bac5e242673ae33f1bb2030feff68;
 0x11ef04a3823d72d4a7e073114b2e6791e38b5b6aed376228ac4a20b2eea244d3;
 0x101022055653fcd3d2659d6a42694578ebd518b5738e6cc884192e1091f58878;
 0x180f05913fdc0f67f5074c976b3ce2137afcd1c1b2940eb951b8de723397d036;
 0x29ecb8a00aff8bb64fe2df4221cc57bb0cd6eb6b002eef1f735b0231a72c7e91;
 0x16156078057591db5810dade70d6c21de3a782d5fa3143211da32ed8f22c0e8c;
 0x29af8f09441dc2c0e1344abf63fd38ba7f08490f435fca75a26390b4e59b9ba1;
 0x24d8bef242f5ea95cd238844e9134d9519d6682b7448d40bc9f1ed8920eb49bb;
 0x2b76b5027eafdd7a6a3902665416cb07e713952521c74857cec4a829375fcba0;
 0x293dcd5247e1143980134b15f9efbdcad3e7700b6effaa97e17339745e004a5f;
 0x2ac6a13e798388a97a5d9b856f8fa5aee5036fd0422f9444749f3b8c4b9e884d;
 0x1f5dc64952b9c1bb892ddae76de8212aa15c49508cb760a4f579d608c665eb68;
 0xeb5587c5c438db178f2725efc1b739d53d261f52cc4340f6488a8242b74913d;
 0x2f58f77c4c03e9591ab2cc38567d41272c1dcca473cc4bcdd0a4783d2b07bcda;
 0x1c908cf8e41976b7d63c3f59cdddcf83cab22433870351c60e4bea21aaf373cf;
 0x23581184440c2ce0f3acbd6ef778e504f6162f1930e06688417c82d85a83e9dd;
 0x2fca62a378c65e6d2a0b3b6d89489e8ea6bf5d95cf27f40b16c58a15f05e0ee9;
 0x2390511812e8b21ad50a44d1eaad9690f187541f7ffb8a0ff44e35ce3b2733c7;
 0x24660a052455c262cfb78be90a43345338dbd808c422e880eed6b19a76a42d9e;
 0xdb011c8a8f6df9cc0163eec3eba51b230837db2013659415ffb24b3958cf107;
 0x1bdd458fa2cd40ad49ba12709f1bd117ba67639f7b52a7732c56b98e6df5b2f8;
 0x21fd3e66b238769774a650e1159c04c47ea364a48157df08d90d4eb53974c15;
 0x7556eebb12fbeed954d3e9dc4d5da1ffadd578d4ccaf273acdcc0635edc98aa;
 0x200a1f0fa4e71fb1aa1c9b45949185769e97d29d11caf13185fab33fab36e09c;
 0x1795336032f18e1f4e392b03b65bc3dd268813b2f9bebbec00548a18ba37900f;
 0xb3d2d7ddc758d320c61ee6ea8137f08d2f31f3d159bc918b0fae895c42fedbc;
 0x2bf1a39486382c117a286a19ab96d73bdaa9c9b45096518f69491f157df85c0e;
 0xe30a774c353a2cbf244d3d014d1a0e5ff0bac5e242673ae33f1bb2030feff68;
 0x22dc5c692d9baea0fa2685d2c25fc510a43bafde0315da1c52c108124bd40b0f;
 0x1c9a763950a409e9363997de4e3beaa0944b0f1feb3d917238409584e9c8fb68;
 0x15761f0591d99bc354aa0bc4a11153cfb0b5335993e4e600d4da4ed88fb33199;
 0x19374736f4b0ebf7dd3aecf4e7cbb669a53b4dfba1ddd4b951769ee44c51edc0;
 0x1616bc37e489b1559a3e813544f2d3f6c05a33dd8a39c644e0179aeebc274cc8;
 0x2fbed52ea54d56a8aae40a2f16262b5cab2bee4e964f32acba16067841ef5edf;
 0x1ee85a9999931500883944493baf240eb51de8e8015fabdcb9ea68797bb03696;
 0x2b78ea79b23365607e821a947bb4ba8035f28820f1ddddf1caba7edae1eb2919;
 0xe84e11e29a4b9ac41c2e953f61cc86d33254120f426e217d2e5727424cdd81d;
 0x2f28c96987a9aeea275da5f6bd86a15986784da79796f308fe96d7b28bc3b2f4;
 0x2c14cf8c8c895efacd96c501d5461df5c2f9494911100a4c1baa5b40f8751ae7;
 0xd311aba1168e2352b438015bd49b31d9f5ca1e8460801bbe65ebf019776ce17;
 0x2d1ff9afaca2339c66e640fde96fdbe0e586e71d79e76d145acdd126066c119f;
 0x1c5ec2267db567e8d5f1880899e3add17e7ee0c611605320bf32fa2d3b1842d1;
 0x202908d4f1a4ebead7acbd09fcecf10a8fe557435ecf51e30834bf136827a83;
 0x188d37c6825523715475a10e21e432d21a8f921b32665cdaa6dc91d31913d982;
 0xd976b5ddbc8409fb64b65e1c5f458bd058ff8d789386fdd595eef3a064eabc8;
 0x19268d14b34ccccd93947b6ec6455b6dbaeeda1ca9cba82f33d6e4e682066db6;
 0x68d38aec68f918213eeb15a3d5e65b3a3a4ff930b59b733e34b0b295f6db1b0;
 0x24cf117219d823994d2210d2bc2b60585cbf6d667eaffbc726c2b68a3fe466f0;
 0x122577912131a547f85c741fffc4d5aa5f6e45453119a63c3004f64651e821c7;
 0x1996ff6a6f3dafad0245a77ba200d39de3371ca2be5264952657ac703241d4fb;
 0x1c84f6cd3c3b1d091534dff90e04f0675e6c6e60aa660c3dc4366eaab3ddfd33;
 0x11f23290442ae048c2622f3be83e52ab302660bc6df31171f26bd42a5f356fe7;
 0x2311bcb36c72d2a3f8b103c39583be307ab91a5b020252f7c8015e1c9ae7e56c;
 0x125707cf76963d6475a5dc5c1f832166070dad40eaab70cd31b51e83ccadbcfc;
 0xe30a774c353a2cbf244d3d014d1a0e5ff0bac5e242673ae33f1bb2030feff68;
 0xb4b8a05506a055387dd95d95f3c91bf6a1da689ded43e1f548f703649486988;
 0x1d0c6ac842eccd47045e4ddb34e04c1938f9e93aa78b5fe2c0f44b00c6131ae6;
 0x8eae224067879f0830f967241ed0821f41b0e20f9cd8a6121f07aac10e30cc8;
 0x73f79694b751847664cd5da30f38013f2a52fc2530a56f01a10901cef975cdc;
 0x1294381efbe257c11ce6136df76cae6caa4ca5ec1934f1a7f5d4895e97391a5f;
 0xc80e686ab09da319588f7c17b27db8dc60981c0feb8b2dd58be98ff6b3f553c;
 0x28b442efb75aa8e6b0d277ac13613d59b09959b3a1e90b457f7d93fa7bae6766;
 0x302904181cdfa19f33aa2838f6ba83cf0202f22054856155d5c10a0d5970042c;
 0x2b17dcbf694b6ee011663776b422100989f2576d78504227d547db889adc4dc9;
 0xb89fd0b5f5fcb94a3fc154664390d7dbc7a8f028db060b7a594f205eb554de6;
 0x29643b0ab6cd148bffeb6bad54e34bf13cca00ea98c538d900e949f8a223d1c0;
 0x25ac40e12ff5d3ab47779044da20a35fd1ec747e7f9804f951d3e3994f0be643;
 0x22b19dae475254f480d6ff651654f808e6c99cf54186094f5a4fcb3d9c992524;
 0x1c5591a266c5ac14f1c83848bbe3f9bc926c83b4a19031af0334da64ebcc0f57;
 0x22dfd894770188e65c40390d7ef1a907800ab916118530a0c1b736c885a42643;
 0x3ce73087e6cf15f4c0c9e94c05b1490f58f2cc4ad3fc746bbace3ee6134f65f;
 0x2d391381bc0ec52a224a9add14af01b875b9ffd69dc115e348c1d6c3c743ce29;
 0x1561f352a096cb328906c091a612b9ab92a4433f5d65f4f55e78b02c4f84414b;
 0x25de146f3cc4f32b6cf8694fdd876a1c9f0269e89d63d48a8ae9ca064ab2ae64;
 0xf410294c8d91a9bcc60d25f4c73a4797913a27067d1f664771da8d1284a77e9;
 0x11a522b6b25687e258df304954bb84ceb1aaa9d977ba292ef1ba49c652b033d5;
 0xd061366179c02608f06b6984ad53a5adc8b1effc60275817e79e7eb031f5dd1;
 0x14b4604d095f37b5974254e48d7dbccb68da55306e08d00fbbb8f06bebf15f8b;
 0x2f0d5f558fd4454b062fa33f1e52c5a6559ac1379ae507aab152104f511eb53b;
 0x11b307ffd788170d196853547920b916d6a6fb63a15d4cab5452e215f62674c2;
 0x2c4b021e2b757863b41bced2e1aa5be7e77c152e396026fbaa09cea515001c35;
 0xe30a774c353a2cbf244d3d014d1a0e5ff0bac5e242673ae33f1bb2030feff68;
 0x32fbae1fe345271632403da8c2a96a35805c2a3e87c4457c8a251137bcde383;
 0x197360c47371eb2f8266e052762cbf42283dd8c4ff1446213c1c11752c6c30d1;
 0x213ae97ea4c10ec4a64720db8810df370ce3e9d8492f6806e06c871f0dcc4ba0;
 0x23ea027e72e70e5db4ef89316ef3a127454fa082bd84b255763878395ce18af3;
 0x1a522fc99812fc6ade296385a9f64cefbabdc59b664d33b02cb1c805465e0bac;
 0x282bdd7da996a1d58ccd9e4797e17d6a30224531f3d773b48ef23daa5077298b;
 0x278f051ff5a35ad9a0f1e5ce9a99c9e1b669f58b127b174b1573e76b9a95cb66;
 0x14d2d438ddd5fd9756f4afe9649c2ff2c9ddaf2e6d1ad10b8dc4550862f7424c;
 0x18dbca4af7f465ad6968bc7a1837c03d10d09a94f03c3e7fd3f2767e86be7b9f;
 0xb2f4c4bb0ad8c2047f62d2e6b1024da131588d16986b03e63e8ce9ede6c7fe0;
 0x21316797b3870762390b31a48e8b33b319da5dab6cd4a0c28170eeea58f782;
 0x6b3f86ee68e72580f8949c7ce7e789b629efeecb5e71a64d17cb1e8f4b57211;
 0x21a36423378fe8ddd4d3ac4a6ded8b65b8ba023593a99758ab917ca0b67a324a;
 0x1ff68d97b4ee71f22110b03e7e9f14641d8e98513a9b70c9e1eff000fd537006;
 0x2e0d1aad3b8bf21314fd506d418cd7f78887789585a28aaed747cdacf7765b7f;
 0x148bd4a9f6dcf19bbda66f4531eb4e876443c729ece0612fc005dd89c808efa4;
 0xc11decd7766f5601e8d5dc09960399e2a441254b57aa25bb3bb80724a8510d5;
 0x653950fb31c1384207cb5f22e6adbe9392e0fd3b6fbbc9eb25f4064656e5b7;
 0x61c7be518e2a7e7d9ff8af58dcacfcb3f0499cf7c35ed13929affaf57c95818;
 0x632546dddba57da93cb55ae4fd8dd0065ec22c94686a63cafb6b151d94fefa3;
 0x1458d6428e6cbba4df84a44ba6aad2a9cb0d1c9041283c1ec5277b2990418750;
 0x1c58296b3da9f61460610a21dff1ba812b726a9011f0180e4f457874f7d8b8fa;
 0x11b039dcb0af8c795298f360dc7f55aca201c35487b1b81cf009fefc204bdcc3;
 0x1fcdbcfd2065473d499a075bf5857bacba94563f2814577e5705a020211dd0e6;
 0x2d9f02a658742633b88fe4185dc29bc4297d7aa9dd473740183ae46042dfb040;
 0x100e915a9be179a7cb25c2332a3d48481deec2ed9196214a55d765309cbc8af5;
 0xe30a774c353a2cbf244d3d014d1a0e5ff0bac5e242673ae33f1bb2030feff68;
 0x1a618c68dba0afe90df2de9e4aa3091ae73582b53555822bc903932747e520b7;
 0x2cc1683d5312031d06b89710f03b3889066006177c574ce3cadb093e7ff5a301;
 0x16e6197f7c10ac35b2432c0ca10249b3b39a8e3eb83d702482ffdd8a0888fe09;
 0x221e4bff156c6a15260b4c5651064fbe3b3cf8f10721e87ee9f72e7021759490;
 0x17ce9f46591fb9ea7e5794a6fa66b1434fec12507de6e8fbc1e4472d27109b28;
 0x22fce270c4b0961c89d92325c52c85141461e0994e04132d632ee19d9c51e556;
 0x15cfedfe30848fa55432b62e7791109698a457ecd5469ecaeddb9f083f66590f;
 0x3343e9088cfc374b61b75ad600de6236aacc4769e5ee8b9aec9f07bd0969f51;
 0x233d73ed21179810ccace1227dc72f2f8c80ddb446861d6e833a29c4084d44b7;
 0x20c8fd20ca1ef20c39e6c99478f2bde9c46dbbc0afa8c840ed93cb153fbc0be3;
 0x696b187d4df08aaa80aaf272d12f72352f6be2e67568dc45b9b22df83b4c672;
 0x26242eaea95d43830574a5378f27299753c7907135c9350cc0afa30c1873c429;
 0x2db7e74c58283b55cf6be1fe422fb2f2523020e04549b7cb88815694bdc078ca;
 0x1c3db6fc9f3fab8d9e62d048cb1a820bea78c43a71f202f779b8996a1559d821;
 0x14eaa8042ada3a2a7d247d46b7cc0138b9fd124674823942d207c7c6a330d395;
 0x7de2b61b5d7796c55c6c9cf4808569d61c78671f7484453d201d29cbe419aa4;
 0x1db38a0c262bf63e0aa7929777ac0914eda83aab24aa47d84e60ac4ff18bfc4d;
 0x2f2c6dc0cbcc26d091d95038e04a2886fbe8f4b368a738beeb995255fff09df9;
 0xcc224d62b63572de577993e48205d0a7f574cf32add5cbe518e55163cf540c7;
 0xf301c14380b822e1f0319cd575d63e603ec8666f361b500d1d6c28494c309a6;
 0x2e5cbdd4c1599557d596522efbd078c8e2f9deca7503fa533ea5230b622e7a9c;
 0x2b7b5611c6e8b5f05fe9fd010bda63b3d6bec1a90dd4e4d95da40bb720503d53;
 0xac828155aa6627ebf486d5491bac13c32b61cecb4d3178cd4701369c2740155;
 0x1946be8c11cae21fdd176eafd23fd635352031a5df260edc493c820fe05b00c3;
 0x19f2dfcfbf6dfb65a8051d60ccc08795e63fa53e3a4acf89b85259e6f85f0030;
 0xfe752a9169dff4e402c76a809563f0d83c6e26d9ed3ab2a3b0e4070ee7baa4e;
 0xe30a774c353a2cbf244d3d014d1a0e5ff0bac5e242673ae33f1bb2030feff68;
 0x275833d56c1035de1383b7eb6759e6971286af950f5b5b98ceb2a2a9fc52f45b;
 0x2c02e7a87debeb5cacd4f9c776b5999b8216f0621e87720a8f672ffd3051198f;
 0x3a6f6d6dbbd957561e33bff1e7f97ce1b8bcbb97e5e363a58810cef7ee91851;
 0x116fa8d34d5c67d290555db1263b34d2bb0ce83a89a81c5a0bd4110976efda34;
 0x1e81d2d2d04f5cc16db99fdb340df3e85d75e9c305b541d2d933f8b808b6e075;
 0x284898f56dcde9b85983aabb51a7324472955b62538c8c6fbe554080a871497c;
 0x1ff3a909f501d15420e9efb7f8071c0f4c55649d5e0f81a4de0fe31bc4e694a9;
 0x47be1a9fcf3bc7845474b57d44fb1218bde905cfa1da8c052a9614280bd9cdc;
 0x2a3787a31e5611ca3856cc840fad2b0a07bbfb4172859fa6fe527b7e0d5b35d9;
 0x2eb3bf4b3a98c7da655259991393cf7b87eb9f4908c475f00facfc5572c885b2;
 0x26aa5f863ce3498db1f5b71c96457cf97232cff235365a2a1091b6a85fc94d6d;
 0x19a6bc7f148d056a10ed1610f5f9b22a827ba85e51144c0414400ff4d2e91edf;
 0x196f5c78726e289ecfca7a2d2f6f2a5e82f51df54cd54d4ced1627b9e7f30a72;
 0x1118c048d3dead019a262810944ef9fe5fa017f472d5cbe8d27b7ffd2041db4d;
 0x4c7b810ff3f0ded46f2d4cf346e22e402a529d4793314a3bc85f963a6bb428;
 0x2e843295db044df4ab207a6c7aae26693f37a5e5765663f22c6809e22fa0ed24;
 0x17cbf9e9e90196672fcf0d0530c0a02ddf4879954bccd82f75bfefb4833842e8;
 0x27ea08561c8d05998b53f428166ca0a25ceccde43a9ca8bd275b4f7c537eee18;
 0x3491984564105af9bbe74e7d14e96eea58d73c39727a8ae616bdccb8a2451f8;
 0x287011118b922300780d5ba09878c898c662b7d5bcc838fdd8750170b643eeaf;
 0x19af1b66a5d2c6e5a4c34856b37a5a2aa1992546461d6cb65190f74d731e7b82;
 0x438f8d1a68e04ded124f370274324e9db5b35c0114b3d5e19fbea7d867e1b5c;
 0x1b7df25e02c2d88bafb19b2f9725a3ddac024746f30b4b0232518d3d4b8e9f1c;
 0x2fca63f9577b3f88ce614fdf17473f7d033bd30f104931fac24fb3878cbbe2bc;
 0x1a782b1c4732869014b1ef8926206360460ee6e9b7541f5eb0bea1a0ef184db4;
 0x16bcba1157829125674fa67f49a62a3da742c2639c62cab43c92362c29c8c186;
 0xe30a774c353a2cbf244d3d014d1a0e5ff0bac5e242673ae33f1bb2030feff68;
 0xfaa456a4f334a6d64ec7443330027c0f6fdc3d0232029ec5e0b7299ea372295;
 0x21ae168025d871601564cb94712b6fd70efc57a75bd794f96e09556ac9fa499f;
 0x2659b387d06b87d28b97c58326d60f8a8e9e20956925cb774f4fb99cb0fc7bf2;
 0x6ecd6537384d3f96bcfd794a53b1cb3d4ac7574d23c753e20185ac05641a510;
 0x2c47b359757b6aadaf39168580ca135268ee4030f857e83079409db9f61a7a88;
 0x2e3c4551ba4ea1bd2f3bb46f4b411ca86accc38c54777867e6b6de8b6381e60f;
 0x1aaa42d6777c0cccdf6dd9c4628cfb4f9091c8c4e19b218d13c5ce8d41b02747;
 0x101d7175ecd398cf6b5e339400ed17866953ffde1fd49caf2327ae39ea805e2e;
 0x47aac02ad51c60e7b013d7e76e0219a33395d4103c62d76426b97fb8a720bdb;
 0x2159734df6ba0ebfcbdb4412f5e985870f836d55eac7278057bdb5fa002139a6;
 0x12c80a7f80bc5789e17e76a5323cc6e879e26b2eec7f70adc14e91a679d715fc;
 0xb37ff835c21aa08cf5e82063ef6dec2dfeddcc987e7fe222a78bc9827c797ad;
 0x136a6d023c29c33b1812073bf0cf9fb61603ad40ddeb3cadf8f202598cb3f7db;
 0xbdbf9722d2aed63d0059307617c47ac2688d9d01a8bb20f4a61b95252dd7b32;
 0x1d90c4f4c52e4c8157ec6ecb3fe1a70937ac8c365100935c3ec4c359137d468d;
 0x25d8cfba9177d817bfe2db087ca7ff74f3a4ef92986c6e5cfdea5703affac237;
 0x30562348197f23b21238c777e3d7f366cc9e69e796cb218281b210ac3f1a142;
 0x2e6b5b67a5f7449b426e3fd32efe3df98af0bfad5006d6370b574b40c645c1e0;
 0x60c72ab89831fbcfd1084cd3dc94aa8f69794540671bee622d6837d41add442;
 0x949047c842cce9e422d779c80fa13ecf5aca5859086ae9c3759cd3b02d7476b;
 0x8c9031e3f9fcc8fef60f82e8026db19bdbb5113c77a4c06fa4af3dd7bdaeb45;
 0x2850905ce0c275e427478ffb5bf44685dd95cf1f57056bc19108d6c85c3e7cd2;
 0xc76f19ff9f52168d20cb4f0cc0d10bce93d28b3acd6d479ea38b8a96f944455;
 0xb66fa2f9d2feda710dca114c22cabeaf616c70ed2bb793a7eaa328ea1ca3c99;
 0x6198754cf90bc048b64a8e925c41c9298890c946aba20953090e05e55e768ca;
 0xc637cab8864b9bff868591c6bd14424892702a1d3e654037d0625b258126c6b;
 0xe30a774c353a2cbf244d3d014d1a0e5ff0bac5e242673ae33f1bb2030feff68;
 0x21325a5b2ae982ee23a4c911b190b63005919d1ace55a101818397c73be72f7a;
 0x48d6872b84e860e934e439b065e7a162d5705b576d4fc14c47535d9e08bec23;
 0xde725e2f88af9c238e880d725e71d8a1d79c4be4421fd9529cbda976462ed81;
 0x27eb4b06d352a3404e16264a0fb08537ddcac2add0782481c2e7735d7ef1803;
 0x1b47254e3cdd4412e01829f03e74fbfcaf9f882b745358294012761106a0955a;
 0x1b4332f4bc0f47d8728dac5d12fe99070a53ab0ed1462c6add9ba42c2323f755;
 0x218d22d5f13b09ace89e377cd7e02d3b52b74a1285072d62540842686f728ae5;
 0x68ad6997a9ced270daca95813e82527f7e6a4d5cc4911c7e0fdde7a1a062d03;
 0x67a187bc1e0d1740ebc7f7343397b235ce0034bd6f6fdbe43fc50394edd65cd;
 0x26d27d9b4d504feb1adc50f40bc7171e56e9cc7b17086d68ac09bd337ab9a756;
 0x6e901afc5dc879d75ef7d324c7b7c8cb8772f7948829dbd2293ab032a9ce962;
 0x14c8e19997ea7bb4131f9765ed587425a2fe5f91aa4f4c918201e74110bc7526;
 0x273abe5cd98541349618c993b7192c978fb02fc236bd40dc3a4a4f61dbce96fc;
 0x715d346135f3b13f84a62b794f2d00bc19cab24d35d168d1f95429d8856e296;
 0x2b9bcfa6deb252ccf6a2550e198f21b5fe0800fd3af70329500481a1f472f174;
 0x239f7dc3817df74d0e93174b1564fbdb7e4010b69b32ad0618a169748e496c9c;
 0x21978d48e2d9c7b097fd4d0cb72c238855c33bc79834ef7b08405b1b6a25b3f6;
 0x269c70c27b7564c9d24a631fd3604d4238528e20b010912916e2c1927df5b950;
 0x2c583dc96a0a9dc9f9efaac1de85327f007597a5e812fd564df9e490b5dd8f68;
 0x121e4187606e3b3382106069e0d56de26dddd453c81d009647a9cb5f48418094;
 0xbeeab0c615c4acfb17eb9f8dd647bf03917e1169c9c38d0f397c10e9dad80ee;
 0x1e07049aefd34f62eb9b702cdd93e84e4f5bc2bf88ac583ee4c8f7f358638c3b;
 0x59c6422f0c9d34dc813948bfdbd3d525a5050122abaa725261b21794a4bb03f;
 0xada60827cce301bb3aba3c0dbc1a32d14cf5723ab4a85abd48baa37b85b318a;
 0x10370b82fad9fa38906fc9afd3d2103760b279a5a79803039ac6d7b47fbfb080;
 0x22b53d470c374ee90f3477d1bb36a57a7cd3e39305dbf4895d1a38df65828962;
 0xe30a774c353a2cbf244d3d014d1a0e5ff0bac5e242673ae33f1bb2030feff68;
 0x121bac144ebf731b7e106308001501b5aba39256622dc16b6832959ef32d6a8d;
 0x2ce538366c9cee7a91c93252cb96b7c42b4e4b26a6be57c1e5448524e5acf376;
 0xe1eb214d4443a823686062d4f44fbecbe3cac0513ec37dc6969a24a5c2f34ea;
 0x2b10f3aa519015cb9f2d8e03efc3e54d82cdaa8825760f40856158eea75583de;
 0x13dcdc97aaf8d23d666426b008a02be78565ea485fc5b3175f2a36d3c6589a4a;
 0x1e179f5a8d8cf761188a1af7f3aabfd0c6586a3ba2da4ac2e609406494d8b04d;
 0x26350c1076435ab7615ef9103dbd8224d3780d72055c5bf265bd8f5bc459c5cd;
 0x2569aad1663fbf0c512be5d7549b856f5058b8d9254ba788ab4b67f957703dd6;
 0x21d296071bb18ffc608d41b9284b25f99e896f90b73c4b6ebc6c7e845dd2756b;
 0x3403ad2e4edbad53108b19db3580bbeb575989bf763939ace10bf3ac11ac946;
 0x2e87a068e7e10cd0a27806e4eb87fc4a909b75602e7ef4d9b49732d30f8f68b2;
 0xfecb01322ccd429e5afeee9ec8f3888c528252874e09ee6c82110bc67e1133d;
 0x21b1a2e21480c8623fbf9fec55cda799a152e941e99d0d6426d24666ecd9a7ed;
 0x10787afe51951f551c5ea3de6eecc8c08adae2debcf2c0add7a578db5db669a;
 0x129a75842ce7f380f4adce069972a00aa0550841e41ad2f46d1665177576f052;
 0x33844a0d5987a19e66c014e83db7c903b6aa7baff5cae3ec6f2e7f9870a7102;
 0x2af0d00127c68081dd29a5c0858f6bb0d20d0e8c8c1fa50d0d539436a66b4950;
 0x2452bc4a8de2db1f282d2d8063ab568d11cf00ddd0ccfb165523b0e7199b4278;
 0x7053595c4f99205b79bf985336e456422650f494c2f79670c0d34257ec689f1;
 0x1bad1a52d292401b1a8335df15429443cd8dc8c5e856e185b8c5f9d0c9bd2a24;
 0x24635b7d3ad41a5bc44a3a17d80a7818355ff8f18379004e5344a7b1713a31b7;
 0x2e7876129f03a5f90702ccaaa35e3d3c2709756360421113997cfdfb1ed927be;
 0x1f6028d50d8a7ee644320cef9612807c7ef8fe40223751dbf8f791ac516fa897;
 0x771c9d46f602c613a689a8334d46e0e5cd1d214a4831ebbc53525ab2d80e5bc;
 0x269f052ff6df5ae60f76c891df96d8e4a23e80371c82349ef960088ef64b141e;
 0x2961710040a2b2d6ac5101cb03a28f3bc2fe649baa6efc5100592077f15de362;
 0xe30a774c353a2cbf244d3d014d1a0e5ff0bac5e242673ae33f1bb2030feff68;
 0x10740ce6766bd5d45ef53a0b79f688c0c9a075938902c676cefec8a82c3da53b;
 0x27f3dbcb60ac79ca5eeba26c3971c64600543857b0d7a6019b292df5d6084e02;
 0x21093160140db2a25e4a17cc7600123cee22ba57790926c04610b8c95f1fd186;
 0x891be8d562bb6feb60c7571f367d6048c3b083b2adb097a27e62e336cb27a47;
 0x2ffb17d674958fcb7a8da2d38554bc5571c6efebc77e89514688212c68d50a1f;
 0x94c68828cd769c940b27f645dba1922d26898c64fef55d5638fd6e1d357b75;
 0xd55cbcf35eb4b2a41cab995bd1b90571e4a87677a90e62793f6073343e798f0;
 0x18e91bc3e095f9b687fe66cfdbbf8c234c27af317f13fc27707d271e871e7061;
 0xec0612f29bc32d89f73f7f0926fe0b3f3587dd7eed49c772b3aef2c5d41019;
 0xccf5311099aecc81a34b567999eb4c663d907a8bf4b22c2f2ab63a324ac3451;
 0x183ffbe622900edf9b6a8021ab80db00676f619dbc1732dcc8fad67128772d26;
 0x8f4331aefe28fb6f009e17ff632db3505b18ffaa61c6b0d341fe0b6387ce2bf;
 0x9eb7f33498704db8dff1c8777ff539d1ded2bd207fae4bb7465c375b8747161;
 0xa531199830d7120018b3039c7afa9a084d529d930f865c38fadcdc40bb008e5;
 0x194b3cf28d7b62413f9b837b687bbb4804733c8e174e76bed846f92068c066f1;
 0x1b8604e1486a35ebe8e6b900127d0dbb54dc8aaca97a4eb0c8956773035f3ef6;
 0x9b8de36766da341c7e0b810a53903be22879912b707e1f3f752e6f079ade75c;
 0x1a435eb920d2b84fe3c0b803ca2cf85a6721d31f21778706d4a87a923ad0ac35;
 0x2566d9e893c2afd892f4702accbcbb979c7cceb980d234de549a3c6c34bdaf59;
 0x18df8272b0340557ca8fa98dc6e75c6d788484702d389f13fb82bb09dd5edb19;
 0x20b183f7293c68cc2324f01a2693d3edacf0c28691685520cb6c1ff79f25bb29;
 0x128c7a2624a1bc92093ebab7ea53e0d5d53b059e21004b19cb0d2bb3dba74f31;
 0x40287c11b5a3f980d59ec06db46c6fa3b54e9d4fe0f474ca15a7aad1ad0ec1;
 0x21d7fa42bc56b52d557e34b091518d6a694595207a099c718b87b6f216ffcd7f;
 0x169dc2796511017c3e4ebefbe57d6f93194a77513fda84ef7457afbada8a5d58;
 0x1d74ad732a1dc804b9584e557a9c18c0b497200e0d27312bd2432691470566cc;
 0xe30a774c353a2cbf244d3d014d1a0e5ff0bac5e242673ae33f1bb2030feff68;
 0x2aca8e251964d1a3261f98ec83cb17d611d17f5758aeb8b34a8121121f7eec67;
 0x12e284f43dd76a9f1751d11335d43514ef963ffdf2036171cdfd4f47c99eb5b3;
 0x5071e18392facabeab0a39fea36c393572e98073e18330d9c4c7e654572065e;
 0x260d7455c8470a5ca5cb7a63c39b0d1fcca3eb1029d2994c5f2c19a39086eae7;
 0x1cf8584e37677b19fb7a05446448d550fe72a4fc79c92e93e7576f101dd05099;
 0x2d19dba2b7658adf60d8840e9c7b115fc37503198335c9050470ca3c098cafce;
 0xd98ea1ad72116cea32da96c74565bdb292b6f62671c5cc9de0904e1ac8a3918;
 0x24ac021320aa1f1addee655d4feaf537e470915474a285ab11b80fd166a20cf0;
 0x216feb63069f6947beb294a1c7240b202d132ae945f7cb81368a2c79223d1131;
 0x20ecca83ee5156e6092763d78973859dab5cbf438b6782f4d4727f07e7951bb;
 0x1e632a42fc326036c1f3313f372803cf8912d762b3026cb4b868ffbec464da38;
 0x2e652d54941af14d90b4347529d6e8734e184f48c5827373e35e96a0441d56b1;
 0x251ff531befaaafc6933e195e6327a853e70f7956ea16f99bae74ce703e13eee;
 0x12ac47acb9b712578207e429b989e017e010e2f8e513e5fdca0d5d70cf69cfa2;
 0xcccf17e0d61b8413ac667303d31b27e5bbdbe2de4fb79272fd26a96a6033c00;
 0x20f2060a29ea58ae11aed61e371eeaedf8c49f7d2d310a20daa4b08742a9c195;
 0x1cb9f0d68dd3c14610ff690400ac156b0f88ddb3496842a82976bec878c1fcd0;
 0x1e75fd54061e8660fb82a6f24ca385580d37c17fc731ecb67aae86ddcbd2c363;
 0x2d29ebc4f807741c6975700aac34dd02857b9ca3f389a34d281aee269e9509da;
 0x1871cf71711f4036a0104f07506e2211c40ed44327c7e19acbc2400345eb7bbf;
 0x630b7ea40ac6a040959e71933395a414a78ef993f03d2306233b0aaffe4a814;
 0x1ea87ac112d60f22961d5b2da26c0a06bd4dc1e73788a388ca3bee772cc78e7f;
 0x26a7a6c245da9cf530f87c9b20ed86af369087bde004bb6dc3eee8b32882c7cf;
 0x1adf5a028ce2b8a0787eca43ebcf427dce7bb7b3ac19fe0a8c0b7016afb25e6c;
 0x5e2e3348c9fb090e628aa40101db8b4f46b6adfc7d31fa82e1f6c9fe5b55a1d;
 0x81d87bc2e14f185b9c19f4cec48fa501d99c70a2bc881ccd6ec4f6e677721aa;
 0xe30a774c353a2cbf244d3d014d1a0e5ff0bac5e242673ae33f1bb2030feff68;
 0x2a7ab507906adcb6522c043a1b2cb2f221e5470822f048220ba731b3933f3212;
 0x1e0791ec0c83cd1f3a0007ff027dd589fb0866c6257c181d293cfb70b62abe59;
 0x19ad62da7c5d8766ef927edd0f7fbd997d0e6c6555a6c38fdbee7f5299b26d8c;
 0x1cf518d282e00b1894f86c42ccaa292dd208bd0d3576ecd1cb1c45d426f660cc;
 0x86e5c668f2c7540e65a379bb9738416e1f43e0b41619cdc040c321aa89db7c7;
 0x2bcd694a683fb621601f2a5f0f900f6bab1f4291d65bb8c26537029484b38496;
 0x2b6f0a65bade0adb23efce9c6e3629a07cefca2718b3949029362c6da4baebaa;
 0x12b25f49fb1cd92da7fe1fdfdbcf0ab1d715ee92ae7e2c0b2a60b8f4106abbfd;
 0x797c7a863ba81aa2acc620e089ac0afe2f713e46fe4d52ccc637953a4ac2f02;
 0x113166107727b2ccd9e2bde6285860c912a318ff3cbe1cca006973f444238f17;
 0x29d8beab8a793123bdb47e3bd56d6e0d6e4c9d957b38d6ac7ca7d53a30fdc94c;
 0x68f99bd269ec2bcca30a5c05afd5136feb63a3315e05dadb2acad3caad1c7b0;
 0x1d8a2e95f5012b9744d33e3db84253261797fadda47ae08eebd349753511d342;
 0x26a6dfcbfcd2a98fa147bd0b18f3e4f66e1f1a329a168e3a61336e4da3bb8f80;
 0x1d5bdb15bbcfd215d8caa665e9687c2d8add0b51cf54c5226ed9b89866f767c5;
 0x2bea457b568fc29ac1a23ff4322caed5463a9cd648769e8a1a118aae84df1309;
 0x1dbe7419ee59dd580a0ab4305440a57fb651830f979f8d21656ff28b1590ce4d;
 0x17ab1d55da8ff17391ba874c4b6e52c77dfd316a0cd9566d1e28c5dc9308d309;
 0x4a3a0d0f9e1b091bdd336acd117c4ede9d64621c6b2ea4f07726e065f17e2cb;
 0x2634ad4e91d1f63da6e2534c1161abec660d92371ed85e8f0e39aa91523b9e60;
 0x1afec968060a10697a3889bf3456a23a4e98c3781d0ee88e29334b14cf7614c1;
 0x23a5fd23ec8919d62176ff3954f983577d5ea821cee695387f096c7fbb93808f;
 0x283039c47dab36071299505922ebc21482295f95632d17c49fb8f07e382641ff;
 0x1a0084bc1b3e951aeb3dc6388708f8ebb52247527a393209664d43a1812e13;
 0x16fdfa540f269b40f27696610cac06faa7eba7d87542dfa42d28d3f453a70622;
 0x638bad28fc8427c2349d2930b08631be095bf0c03572131f3a8132f38f4c0a8;
 0xe30a774c353a2cbf244d3d014d1a0e5ff0bac5e242673ae33f1bb2030feff68;
 0x2b960b4aa6bdb5968fd27106ed926399bf40c9ef7a0abce38158191156d94b47;
 0x21ee2ffd320737215ba399d91f5287b56286e5f286441b29e7f4950f2a108d82;
 0x1a912af8a3a82ac944bc34390ad7af703d1e4a8f32996ea0eca203709bd526c4;
 0x1e2d77fe49d12a919d8ee0b0bdc15475f9d3d5dda831b098a921ef8547542ab2;
 0x1e461b0bfa65838c31b66e8973fd153308af46e6563e523b4c97bad304ce6bce;
 0x1222b1bba586c324581ddde55054315ea378754416b7b74406a44d90468839d3;
 0x231cb90d301a6e6e3f6c47a07a3f262f14370bda5a9844a4c128076b5fdde8ac;
 0xe3e66e543fb59290a8d57f5fda43c4b74b235e00adf1e1440859d8f252fde19;
 0x1bcae3acb52de61f2f907f6fc16c142016e053640c8ad9b4e3baecff97b2c13d;
 0x2a2e7e286f90e3554ac96ed8f80267a3bd9f747d787fb2533bb98f465931f724;
 0x1729e7b06ac26c624dc5c6cc6d761f94d93875ca170cd57f87cff909e922223d;
 0x9565b3ec6e63401bcd15d12f12d8c805ec5c8936c2223ca4dd510a57afb12c1;
 0x1ade0fa28ee13df4d382a505b3893baf5b4568bcce7121b5d48d29567da13a9e;
 0x2301dc6a1236420c051aaf16a095e77aa88f23f63cb30b410a323ba77f21f7f0;
 0x158c6a01fb01f542f7dd93ddf2ba1771d726cfaa7c39ba5260a5f6bbbce3b9de;
 0x2757b9eec4cb27d4e4274cca6e00289f2d12e987465c267b1fa104b02932a84b;
 0x3043d8b0cdac25b084aeab7475766326ccfd15758870a4b47a8783f73f5e4f36;
 0x1a1739fefe6488c79c6c32818ff62a65afdefb9dc62a23bcb3d46428cae5cd88;
 0x56f91cf9e2444d0d477c13c994388d88a2d8e1b88d6080b5a415a53117643ca;
 0x28c8f42ca93036c7226451ee7ae0c1a7b87b0c560de7b11350dc7f74e4ae51e6;
 0x18dcb540315a43872fc246fe3f6779a237c61ef5527e87a400b24b3eda058469;
 0x1ba374f70de60473f60fb7452d42c59f4748debdd345afdcf94d09305b601a3d;
 0x1b40af6c2e106fd4756b548837d64bcf6dbfb9d9380e1a70e010769efc2281ba;
 0x2578f4a6e3dbbf2ccc5e1837b4038327925cffd00f96e8d2fdac677f2b0faa3d;
 0x2ea53ec4f2f8900d39df68853f2ae9e969819d33bbe6ab9686e1185c37933660;
 0x1cb7cd707a851d764b7c3d2da544afa59cb87f6ae19971eef7f403342c205aea;
 0xe30a774c353a2cbf244d3d014d1a0e5ff0bac5e242673ae33f1bb2030feff68;
 0x6bd8c397b1e2d8e3b0d32ef2594a311d49a259567ae4c635582de9cd15689bf;
 0x291adb6944892dabcf5217145ff77361815e58600ea6248b0c0069802557ddad;
 0x96477873e56e5691171631e4eb74c7d2f9b2806b4f0e45508220739587a890e;
 0x1ff4f6ed8be43e079ad849d03ff3147fd6b1fc0db8c1b8477d65c096d4b25a48;
 0x9e5e4056e55464d9d5e6ecdf7127667de411a716e88014861d5436cffeabcb7;
 0xa73b0495d174fe15185e4bc010a545402736752585288200ea5922c5f8d29a6;
 0x108e0279556e28f04c5570a6274d115d4b3b1bffd7fbcc289cebae7053f40427;
 0x20d97451d83aecfb5c0f6cded427ddd517ada729de160d4ebe2429dba9d28a53;
 0x2d8a77024da1f633ae52a6cf17898c5b908f50ae49fdbe65b4662853337cc919;
 0x10571ff92352d4e69df05c3cdc65c0e52747e03f86476850a47f092bc272b263;
 0x18f7cada1c661e5f8f2074f16e72baaa705c2ce42b68e16fdb4d6945a33054e8;
 0x786ff337450d3614fc75c4d314a61395b71473e735332d78a7aeb270443cb93;
 0xcefe88f60cb9a382d5eeded9e7bacac15e7c906dead35cec09ee6e6d0016b3d;
 0xf163a2012b2484e1de36b5991e59ab0ffd4a531574f6c72382fe92576ce82e8;
 0x63dc4f07d9f069d06a30e7c5a96830d2731ca8165abd9ed89d187753f29c682;
 0x71a3293473c1dcd0ccd5a08dec6a321265ac88dac53eea581264663e1dff0d7;
 0x41b8d2a056f60d8d3ce5e3780a341b97592920b170625c1a69f2a23e1290268;
 0x2deddd6775308aa027b3449357f8abb6a6d10e11cc3a14d0feff23e3a8597ff4;
 0xac050f54534015c810863a63b7354a35fe52279ce4b7a142b48f5502702a4f9;
 0x215bca7ae4832c5946f9ad54abc0b3e7c547f8a5a962e4df85d0b82dce914799;
 0x1efcb27d3c098f574e7fd799e2a585ccf54a59147400ce00c86da0ae0ce90684;
 0x24ddc6ad9a48856da363007a1923d1106affa889e44ffa7959bf41edba382efb;
 0x2ef8e41f289aa4c64244554413eb515b9759a6b5ed9e2562d1a674267171650c;
 0x2f1c219c4d272380eb411db7ef93f6e692eca339fa507b656e0d532801c0e205;
 0x5f18c83d3464488a90182139c312e753a60ca4499e3c2c13f7c2e72fbf47395;
 0x179165ec0d175758f57172f5a9f7d1ce6e435a4a1351d77139b92c6ebec86da;
 0xe30a774c353a2cbf244d3d014d1a0e5ff0bac5e242673ae33f1bb2030feff68;
 0x11c208a0495e0e7c3e473f98dd1e8c61b27b44de88dae7850122421cda7cfbe1;
 0x297f95f2fbd4565360712a71bf3c80b798b17dfac6c54d884d99f3aa7d673dc8;
 0x224ceefcf32d746010d8069e79d356d69671e3aa9403f39892e5882a1891e718;
 0x2732b23001c43c62c459cf0a1f48790deedbdc489a6372138594a5a74e5f85ef;
 0xcffe59dbecf21803d789c62b67f94bb027de571a963be229c54c84ab106f9f1;
 0x29b8feb4a9a3585ec376063cff8e0f5a4292f37f7a4b7b1ff228f03f5fac0510;
 0x26a0c0e60a2ffa10be7d6b2c878312de74cc43fcc7f9eba49e05fcfcaa3a8b90;
 0x2e570656db41e2f88c3de3c09d68baba727e76e3511dd4d1291443db29aa5f70;
 0x12bb58e4672200ef2816a8237dfcdf70a9fb07b2ddc8789b748d0b559b7cbb78;
 0x216e369c8afad59e15e88e3ffdfbb1e137e9b314785632ad2c7c81bab01a77dd;
 0x2279e39d7921b8e04b6f36503059b1bf2ed79a3b94f15af97b9720bff85ac25a;
 0x60564813a0ce62e4ac21a85ba36fe359b53e84244f908b866568084e31c4afd;
 0x2268a405631dae60e8eac4f408fbd5268b40b1c254970e3c22eab22fb8ecc554;
 0x300263f7d8a2567496a37ab94c57e2015442257c062ecad9d8412f6c6ddc0089;
 0x1963bc7aa03a152df1eb518cd9588bd04f3fd21a318314fe0e54c1f369be3c0e;
 0x136b67c2b78e28a9c5276c6fedd9afad286d344700fac868de5548c404abee95;
 0x29a329f4a94c6c6c9fc81e8cd90f7f1c9e5f6c89875a280dd9ea0b4b90b8ad2f;
 0xc3d92aec4b647cb21e6f0ebb98ef3c65c3450672ce4694f49f39919ce6da1df;
 0x2f5235ceb5912869936811f841c3ee0f648bafc9edebcba4aad0168d03f9b52;
 0x63a760609f24b3692d205c9b3bebfe088c215877de8d79deaa84dff83abb2cb;
 0x1965360730aaa2fb621c470e9042cf5db28c4824575c994b255c92b02d0b6524;
 0x1838e4b596dc759d6a97b0b763d959bdffc4ba10f84ab4b1c4c71d50a924d179;
 0x258cf09bdda431facd55b62aa65712248056e3edd9428b010a809ec78c41ac86;
 0x1e587e52329f0a29bf3db7337442690422a9722e228dec682be39df28b3bf14a;
 0x120effe3050205b3ed1c06aa186bcacbe860b61e77bd06b9b71e78a710a09500;
 0x18213dc619ab928f68d5aac28df923f90282b6ec64d5ac376880d31fa3bc1d5a;
 0xe30a774c353a2cbf244d3d014d1a0e5ff0bac5e242673ae33f1bb2030feff68;
 0x1f02f7e2e07843a88bcaa2797d91edf88cbd70ad743e938e35396628fff818c5;
 0xdc5a85d95f105d8e4b18eded697c62a032136374296ea9b14f54cb0ecadb9ee;
 0x219b60e6d5a22578775e83f4474206559204025913238a98fe09297e6c473c8f;
 0x435530e014db11e2bfcd58362982d8a33e222783a5bd6db56bbd327cc5237d7;
 0x28c1ffc5c10600c0dc9dc3d193bc58552b235922bdf46161b6f8c4cb5a6cea5f;
 0x1bf7a2f7bf358cd12302582a3b02600994fce154fffc218ae6442bb46026f98a;
 0x179d43fb87170d3d97f4a0166d1663da78664d328cadb544dbf5d6c5d611de99;
 0x8cabf5f7d8a6d458bb6576754fba5a716ae9e484a668217adced3296b7cccc1;
 0x177be1eacf22f916417a28651e18d379eb44e5c2000e329c1d3c8df516c1194e;
 0xa5fae0f09f85d5ab6b22833947da6cba0daa2a9671ade494b7f9d8367394987;
 0x28df87b43e795b370762f1d3f9dc2685e91bbb7a6854acc152f705c89db4938d;
 0x58de2c0fe8e6f09f1b853dac8eaa473e4f6f80fc20e0f4190875d94cada6ecc;
 0x1ba657cd2bdb97e5d24bdadfe5cc11a7543f54c18e65039c0e616e138de5e368;
 0xea5b3a4116ce4ad61e32cfbf9662a60c542aac16016d551149c76700ecc44f7;
 0x2c219d3a2b0e433c1ff243db27a237fe15c733edf0f0084d7a5ba40123fb7361;
 0x19ad974a2285cbd14d04045c6414f199a891524b798cf1e3d692b742cd6d89f6;
 0x2c7d9c944d792ce4b7535207891386b722458c54fbd627ba39521ab9cbc1ebc7;
 0x2e71a3a451566f8919a27edb83647652520bc5b920531fcdcb2859a5ec77bf73;
 0x6a4b1b530cc5e64e84e725629950bd7644f65e7223dfd4986161de535cee83b;
 0xf55042c0a72b5b62d2107153b60482981bda1190bc8b8ce4e30ad101fac7464;
 0x20378dc7686d64b35b84440493ca10a587a5505169d380fc5c5f4a9ee803fc11;
 0x26c526f859170915382b65592aa1957e73f3145c970cd7c891dc86b7d3cd41b3;
 0x194c4e5ab7214877317adfd216f34310e5bc07da13b67139dec08cc25bf2a052;
 0x29e0d646063e27cfaf0e4ffc0546f1b309333958e0ecaa3632bb9fbdcd0388aa;
 0x121b4451014b6382209a13bb0fd2727e59f0702a081fd34e04c8ddeb87d349fd;
 0x3018ea843d3f3f525b9f96b6c6c07e5c86d4a113d183cf66141aa80960048ef7;
 0xe30a774c353a2cbf244d3d014d1a0e5ff0bac5e242673ae33f1bb2030feff68;
 0x26a889065a9131ee8541587286f27b8ab978d106cf21e7cba567839eb83cf5c7;
 0x12f2322938e02f96227e539152719a6fa62147cf82937a0c980eb011c62b01d6;
 0x2a7052a220aa258284d8bcb1e0646c0266349044ca3c17bd0bb628ec5422a75b;
 0x1e01d825bd60d76a2040b5de5e43b90d1bfbb0876dabf550baa3a5dd47ad62d7;
 0x3002ff6560000420d0de98e87d335432be4a58ff3eea053d2d332354cbc22da9;
 0x3d28736a2952e396f2de28f3a567902027214706657773431d54cd10c0a0464;
 0x27716d5bd3e14b61afb8d6ba91b27739f9075ff2630b19c6c2c26c5d5496e195;
 0x13cde7afb44e0f9b6db2793a51226e40aee9d5e7fc75ed7c663fc2d06e9b8526;
 0x503aae89801bbfc5f702f60ffa566477a634dc17aff8f9747d1fd1fbb3cd336;
 0x1ea910a5da3ba8d8a39930b38b64ffce7616fc9c8bc7fc1fdcf12b650d04089c;
 0xeb1ff569a325e123ede757ea250df5f41f75dd2b75c6532ab96dfe64cf7f3e2;
 0x16cc1752c575ce984729208e79714c336bc3224f951fd6cd0b82a2ac4d43f892;
 0x2653378743d2eea387c330a375bb80e67878a9740fc2425a36315206a140175a;
 0x175b14e3bd393d825ff9560dc4ee5834c69beaceb5f8580156ef162c6d36369b;
 0x162b65eff59b3bc39a2ddc923c77da7a17dfe79b7557b8383367922fdd8aa5e6;
 0x297d9796101df9152043297c780dd5137e6bb2d9a25a8fa92187b5de2399affc;
 0x292db1438ce4bced35048fa12b049bfa359709bca7dc314c937f0514679f0d24;
 0x19c2715e87c332adbcd530ce981d8704f0a207e822f190baab421d4d03d24bd9;
 0x139bf2e121b6694f773a58f70956cb782a37e4949e482d87dc820b034ffd0f28;
 0x281e06a2a3e9c7ad29265b2ef8c1f4814adc59e5b3b605a05c3cce8a59e321d3;
 0xbaa4181dbff92f83386e95c6cae0c8efa07f0cd6e822bd3769e4ae8c64e7d9f;
 0x2288cd08659c856e697d93558197d16c03fac590096ede68e959636d09956d9f;
 0x2af86b3b3cafb3ace42a0cba5c99dcce7b0fc35313b2edddf0401bc029373c1d;
 0x173806fe4b0512b715cb7e3cc8679d3a7a4c2b7174e8cd710574b3c142b8197d;
 0x25b66da637a8d92f088d8faecf034ab77e2b2c3f88fce5c560922f648eef960d;
 0x12f5922b95ad36bc7a81c2fe8ffc729342bd3aeb1555969590bf2248d70a3e91;
 0xe30a774c353a2cbf244d3d014d1a0e5ff0bac5e242673ae33f1bb2030feff68;
 0x170bcf0294ae4059d95f36684abb4fc2cd0369a67be4bb919fe185aa39467569;
 0x17d247983fbaecafd39c9dbb1fc2633ee7ccf02383978abe8bba05e7bf498144;
 0x275c74ba59d68ebd78d02ea7bfc087b17708544436bb5438b41b053072df4836;
 0xb97a196195430ef69cf23dfd0906653e5808c3593449bf58c374242ef82bdc6;
 0x25bf621be7fe04105e8a50b02ed9025840affde6bb3bbdd06df97f2fe9e02e38;
 0x296928baa83c1016ead86e5c9011b134d5d24179b1970e68dc89794b73d024d0;
 0x23e6fc3b8617b6b51f35d983c470a99546099a6361ee1626e6e44e5e3e2f7dbc;
 0x1b9b57f457f685d54e7f7f332af4233d293106f56ac093a07c209205217108b6;
 0x290f0ac712987d7956e8b4dbdd8b6706399adce9506e3373d229d45605637311;
 0x262a3b6b3986c250d387fcb734cd914f5e8bb751b571fad1ff366a479e3e6538;
 0x295b88ac50fee49245bfd9bd911734324c8d00abea718917a4dc6c21b3e507de;
 0x2e7a6894330ce6d6478206619aff889fb1bbdcec80e6f09de69398f344a4f6e1;
 0xc3bf1bb2ee94489afed3633b8ec12dbaa4b6a2003eac80e7f1668ff340bbefc;
 0x2d61629d203317ea4449e200880be2ed8421aa6f2de73aaa56810fc304eeaae5;
 0x1d94aec8d967eabceea3de4acbd2c3b19fee00212d2dece58d5ae53bfe6037b6;
 0x2f76d72fd59722c377e315583f91b326ea792968fbe6bf73582aaf7af697d3dc;
 0xd243da739e905f8b000912519379de3a3bad6de3c3aaf91cfd78f9735b0c1bd;
 0xacfdf5f69c09506cb85199eacdba0b9b3c5a0fa1a60cf283877ff7efaf3bcf7;
 0x44de47687196189473b125ea91ec1ceb1481f8f49fcd47becef1b01f4c9fe09;
 0x27e155dea5a1134466a8e2ba58e2b03cad8c38c20716a7d3e78c483b019e79b0;
 0x2860ac51f3e70148561d5c109abdb096225aaf9b7bbc17bd7aa31ad26e243e75;
 0x1a33e054ae45916951f73826b9badc032ed3d0f3c21acc7dd18d46f268cd2a86;
 0x237acb3608d9158738b6b37b6f6b287531d9683bbe16b463c946b752c089ab8;
 0x9328966036d95ecd345f77dc984391d09732acf567d010b855e0422365c6209;
 0x6a41ffd9721ef018d7e9e2d67b8d9820d6a80be401e1617e07b29b3c5f8e53a;
 0x1bac3b3b9cd40ec41b542b47ff0dbda03997f88a37aa23de69d0d5113e5b448e;
 0xe30a774c353a2cbf244d3d014d1a0e5ff0bac5e242673ae33f1bb2030feff68;
 0x17dedb52641d9f9e688a673980bf47c462346d1d6731db6bbf0c27ccb2565173;
 0xd947949f35e75c29a986ed662cf1e1d85c2e3f3a9489da6d7a6a6573bf3bdff;
 0x2bdb20a8327ea3f509eea1f81865ac34f7e7c5dc43d516294a29c208cd0bac7e;
 0x2fecb170873731d070ccec6d88733be3275e5be22a47cd294ad7247cd75247f6;
 0x1183c981f815c35119fe4558a0aea9f533f9d7980195d96d75a80cb1fed40c02;
 0x5fa320ab5dae365f8a114d10921a5fa13f79f44f18b57021a483eedc2c5bba8;
 0x2b951512add2c708a010d1ca59bed166f3726cae5cb1525dd379156d810e6c2c;
 0x11f646514881127c9f1067238c06a7ca39b9c1a0234eb1b8658c2bc70404578f;
 0x72413e94aca278eeebaca63c7941b548147387d21578f97e58ec27198fd4e58;
 0x2aace8cefc1be4d4175001aebebe91fc87a46a280be0a90886383ff2d561d7b7;
 0x69e64230343d9ac3c6130b300cfa24cec6086c85a1aa1c8edd073a7d33adb2;
 0x1ce84829e4e67cd9fd3bcc8d1169a15c731e06ba76c77ad60e84b045d5d731aa;
 0x23b52a113ac4ea90a8330c189a63fe9520f2d73db94406abea72150ea2b7ea0e;
 0x160218f2b7e2d22653b3ca12190f5538563aeb27ad8ac8f2f71943bbdb0c5928;
 0x84c1a87e7fed6aa9c80f455dd132e06f897f43b6bc12f3f5ff56a4297eaa153;
 0xcecba653fff37ab5fb266ae654c23b2cab83b0f7ba92c706a078b4de3221adc;
 0x2ef80d5e15aba6b2652fef7e0419167f804f2cf713200eecf30682cd138781d1;
 0x14bd930a77fef4cdf7d47bcb46ee6fa596c43e9dd40ba87a488c613d5968cb58;
 0x1ced050594cb02e43a97cf4126a5dead21217e9b5dec28ffd803a381ada6dbc0;
 0x2efdbbe781cc22b39fdc48af3424a354c48ceb17113136ec794a9b3319fc9429;
 0x2070e4e04671601ccd0842cb7a374ff2b93838af86ae464f82ceae2f1539c1d8;
 0x123741e7f63e77fa3e2d8abd9f222b23dbba1c14e8af53385cad56594f065e1e;
 0x1b75035c35b201efc55a1d47aada8976f5fb0dc1da22482a6b61d33d555eceb6;
 0x25d76dabc919ef40ebe597d4bae43fdbd2197e9b0f7b7dda83a1360295e9fcf6;
 0x666b59c9ad666ed3fc9d1e9af97fcf7ab94ba3387573d8d31f03084f9e5c976;
 0x654f99795543eefc6e1b1e646108896ea5161c9c9a5e174f2e1cb9093809b4c;
 0xe30a774c353a2cbf244d3d014d1a0e5ff0bac5e242673ae33f1bb2030feff68;
 0x2a4984518cf4d03a9b3598bdc254484a1805160612b943ff7b509637f12a70cc;
 0x36731a2bdca86fe011dd7bde4043f89ca492084165aefa6ad9f74717ed54536;
 0xf5fc4d1e67992e65abcde194f07cb07b72800a4f4a26e5020e96c5d4ae3a952;
 0x20d02c9669942a2fda0de7a67b8c5cfca08b2e914f65652a71044ac9a09190be;
 0x20b3c785c2072c1016dc316a7933ad541fffa7df2d289b32799e106dc4f9c1b4;
 0x1007df7ccc98951aae782b87985756784a1444531492615315080e2c80a33131;
 0x223a10997957b12816110049ac7b56d550cd7a5c0b47bebc1f8b35167189b2da;
 0x358632186da4fff1765d4d688ccf425c333995bd7438240be0cce1428717270;
 0x216b1f88bf14a781c99ad7a394781182d40162fddaa8391917aca465382be039;
 0x108441368a058a30c565ac01d4145056d5a5614892879844c07a1c0289b2c928;
 0x3df1a412eb02d17bcc82088f46cb5f77ec6279ff7161856c52480d00554a366;
 0x2cf2d9f080d1219e2dd3d7cda1442b178464a583260e6d9632e12812b08c38b;
 0xff8f5f8d239c9afc6c9d041ff0805ee22c3ef3cf5248fa2ab198a303597d82f;
 0x22baee6a9025f961d95afb122fe50ce73d0acd9a913f2fc8d07a050f4de65dd2;
 0x1131e942fc36296247e9d9013e71cc89498a7090a683bf08bdd23e267340fe1e;
 0xac6a1c394f929725acb0a1b5e11ad9e28aa1c79da25624596451b04645d8a76;
 0x3cc80ba68d89cdcc935b0d872d775b3b8f2a0cd50df89edbc3a6269290d6950;
 0x1db513c2f29ae454a99bf928ffc2d93fbc363d0bb6cd0bcd93106d1bfe5f789a;
 0xd05dae2a4b1ec3585f98d84bee7d10717da3b17a71281672e3451916260a301;
 0x2adcd4c6f191ccdbcd5a98bdc6050ba95009e2039de7f0fd9bbeecf0c4f1ecef;
 0x4d0d5708e1d87ca69eb4d44350313730d9d8403801606def36f035183ae03e3;
 0x11184dfa1ada7118e79f8890036facdd47001b7b63b74c3d2983fceecf3ecae5;
 0xd32f8b975e939f7efa097c2a3d4cee8340deae3012758e3b3a4ee0a2fd193b4;
 0x1a24e9162049895bdba49f57cee0396e4734bcab60d8ec4305a5b685b3ca66ed;
 0x19873998ebfde4a585f34a40a6e1fa702b7fbd29b09aa141c5a878e448e48e2a;
 0x2d055b284ae3e229cbe0d4901ce6b687eef40d815da38cde743f3851c774fbc5;
 0xe30a774c353a2cbf244d3d014d1a0e5ff0bac5e242673ae33f1bb2030feff68;
 0x301d2bd94a2a85a3c802d0467c1cfb28e2aee547d2f7d51c2af108a549462a23;
 0x19ef6ff9413f7a05af63f528a7f80dac32bb3fe601e02ca15feb99f91a844d0c;
 0xf1cb5dd8ea58b523d3e9d9de030ea9db932b770ed97d2755da22a1512696ebb;
 0x151ec2edecad41d2a4a74e8b09748ac3d11acff9c8a825e0f0c539376313fc8e;
 0xbf605154c6e6cfca764590093b09ecec2e38a0426d4f8f0f6f9ce771d4ccfcd;
 0x10d1c2b4f3622195ccd9bc64ab73145907e7358d92beb85826770d174810cf56;
 0x79c01911499171a82059606f1a0e1683eb2f076a4a72314e51924b61259fb79;
 0x1886095782a7c6abf9faf6549080c2a72f8ececc22bf58073df90be6920473dc;
 0x261c4081f13edba795488c906dfa2b59917affb44cedf1727cb27da0b0b2c20a;
 0x2cfdc7ffc3609e9d82b3bd1f2f1d42e15d1e0b7eb24719123e0b67d060800dca;
 0x3c9ce71c00e243a950dff0d9e0a5d3c42f823983f6c1d3d50e0de1822993d84;
 0x13714ab10fbbc54e15fa5ff0d6bca9846fc940a9c6bdd87b044868600f89bbee;
 0x134d4838b8c77e7270460739fb444e60580e951d914a5a20493a2b03d294890a;
 0x1e6f53eed7f86f7291436624847ef6451457756a213c168c3bd7a5945a4f2873;
 0x8c4e9815652721c5293235dec1eae97fb8f93ac48d86c37ad6adfa77055665c;
 0x18d007112ac9205d16ff209b80cf0b5260387ce770d4e6978edee9e0003fabec;
 0x5140e8f5d27d7248a3e50e84c6bf700fa31c1a1a7ac144390f4bcff5ad61243;
 0x19f153d66e44c662af026dbe5be9be834a10a3dfeae59729555d709d61e38f7c;
 0x11e0299ac3f3ed3ee71377dce3b85768cd2a6b65e9d3bea24743d150e19f943c;
 0x190ab7e9ed8c741d54fc558afc96b35d9319d317ff6d6332ae4ca77a8a3a7911;
 0x5bf8fc4ad0126d42c22ed2c659b66f053ca3604f0968520ce5c7ef06c5a8793;
 0x28c05200db6d51df10d8a4986cb65c078001f295343de608d68fae45cabdc5f0;
 0x1d64d0d4143f869056ecb1026a361b48dd5162f38beefad1a6d139843d3dac9a;
 0x56869389330224064b29f958f37fe90fc2bb4dc2454425b0d362b892be0fb73;
 0x21124fa7acd6d96ec308ffca46465e5da69c44814c6e40e705b7c6b4d7eaa333;
 0x210de4f22732824523dd4fd0587eebdd78cc339e8dc44fbdc2a317244132f7;
 0xe30a774c353a2cbf244d3d014d1a0e5ff0bac5e242673ae33f1bb2030feff68;
 0xc231a81780a5f9babc1f4137106d456a5cdf0a356e0c3b79b330982dde6c5db;
 0xd2286ef77f15b562ba8316151a92458c52ab6979d36481abb6ee9420befc144;
 0x14cd6adb239444df9b510c5e1c2a378f3ddfbc75b61371b688931bf3c6ec2563;
 0x1f94577cc0cb87a180811923adfca9a8cc77b8ef41c0efef36e1b319679f0f10;
 0x2bf8ecc53796cac7b1b4b8e8cbfe8f92c31f726dba638783eb063b675fa96064;
 0x2443dff5793f12826c9195fc95caf2162cb739d837c4e15d426e65eb20c44884;
 0x28807445f05857e5db18c6ba6c0f3d67cfd08d7ee0a1b5a3ec259c11e57f6581;
 0x2d7181a0eb717fc3d9554bb1996ee527cc29fa9dd3ddebabf346725d84389a45;
 0x1d467a0dad4ca6c95707e95f8780ca40fcc983a7e1171b111a8874b122574488;
 0x2cd6049a0ad06e9a9a9eef6333566fe7558db0007e6e92d71250ce582189453;
 0x2ec06f373cb79c1143d0ead6ea94a531574b642a2a88ed6cb21bbafbe2932c57;
 0xdadde1785a6e8705856c47207ee42045dd0360c3cb332e866dd032ef9bad925;
 0x26ef0863b7b4eb4223c88b5864b903526d84ff81c099ea942fa99ffa0e376678;
 0x26f1a2490186a61de95667c8672dffbee6bc1451ac11fe2e9d159d308f87caf9;
 0x913a0a4317ae24b6cbef39c87f10a3f47b4fa74b6e7f9286a6991027af81d6c;
 0x101d691311e602f1bf45e2bad29994880376f57804517525eb169240d21ef3b9;
 0x1c55eab0a94644305995dd5b9a4f2724390d88fd3e982be43b01a627accf5b16;
 0x1f788dca1edff5172b4e948868bc18e7c0ef3602033d72ef3227f8776bcd40b8;
 0xc5dc41e36fe501aacb4d8f8d33b12da167a12fcdc10626a1cdfc90cc25cd819;
 0x18a6e567865d428f2dbbb6e9bf298ab8958c5d1737618e5f1c5679c76787bac7;
 0xcdfb3e5975fb90caee98497768f37dd465586e1669d6bfc512b32a3895c62f6;
 0x30edc8429fa6230b5bf9553ce19f0a78055f2d68dec10957d0d64e8a3bdb3e;
 0x5ff6dbf8c00e9f32a61f908e6fa7518e49ce0bc92dab519524887ad9bcb3a8f;
 0x187c0035a20f42bb04a4d3f172d8dd71761fbe16405a0c73658a18e177012b32;
 0x267e0e37151a8018949bd766e65170ad7944b54b191df4904b67d181a3b0341d;
 0xde2f39c45dc6b47bad47d29d8ce587e60c432bf03f9924e3d70152bab232ead;
 0xe30a774c353a2cbf244d3d014d1a0e5ff0bac5e242673ae33f1bb2030feff68;
 0x284591632913e57214bc02159bb3e8e81c06bed2fe6f302a3d238f14152cb3e4;
 0x2f6110333487576bb66188bb38170601a18b160a41c655f55b366e138ddc3c88;
 0x10e8a25fd4ff737b1fd8eaa1ca0fdc107a1d9e48ffbcbd86fe2b388dd10ac80c;
 0x934ae9d36b935e477c1d92c9ea1b80bcd2d81f3fe0e37a4df894293f7ee2e0c;
 0x1d48097697bd76fe5b0fe21d8c182a9a032700c0aa94fa147765147a66c7a732;
 0x26a007b8e7c5a0f095c47c27e9a68c6be8b08766863ba33854b2dfcb6c708f74;
 0x1db9c979d26dc221830cfd85bb16b9bf6e6ed9032c917ed64046d24b19feca2d;
 0xeb6abf55ab892abe5ed8ad7223d04460eb7cc6591216c260250ec0ea22852f4;
 0xaf52963d2d8ca1d85fe433b3e20e360f488dc7ae40a074925f612959482fd7c;
 0x21a08ad9c5da7fbfa096b1773acb293efdb29b76a2b0d54f107110e7f7e7ae8c;
 0x6cbf675121397f0657bae080980b2b22566613e0501f74eff8f71826a5aef4b;
 0x31a23d2ad653f7306b849eff0b4373a7a2eae9279e8f048279d90241561b192;
 0x2f086707d317470467a8e0ae03ba725ef79ed1ef014395b67ad4da788237769c;
 0x24360122ee8c5a9ceb21696d69d5456a3166419377b098388a2f19966ce62005;
 0x17c0f7d233d0fbcc5c520f1ce3a5d4b095bd11fe8f39f090ab7e9d24ebca8195;
 0x3f293140b7d07e158f63f94792f943632ced772d71cdbd93e171a98a2bdb1a9;
 0x280d4d680de44f4a35a8d0baa4a1feb3701fec97a152e977b5352563c797f68b;
 0x1633dd4196cf695bfb9e5138ccbb381b0bab619ad1b728802c0e9b35770503e5;
 0x549cb9c6b3ab14ade93f695dc31df816e13e6cff79023f91c5ead9311fa37e0;
 0x12dcea4ce3927ca8c308751550a77c5ce4e095e0e9a417108c18102e4b0aba31;
 0x78331ac4c2c6702655cbabe212124d4f1a1f5005a75faf2c6fee507b9996541;
 0x5674b32b037c937ab00bb7ef41befd1c0004014b66acc26b117bd0b462870b5;
 0x165c541ff3c38f4a9af878034316bc4c08ec15fcccc77657e7aea32c982e26d9;
 0x16477e2f6956b2a232be8389586b0569feefab7d635f173ebfcaaa06040441db;
 0x1698424bc862b0a96fe6843dd5c7626ae0182d50f8323c338917bd9e8c8a8744;
 0x1dfbc6764488855933fe75e10ddd60b09d67d98c622f36cb565931d97e922988;
 0xe30a774c353a2cbf244d3d014d1a0e5ff0bac5e242673ae33f1bb2030feff68;
 0x2f722fe53b252f8256f3c9d613fcb12205dc97de726ac8f23c6d4ee0a9575add;
 0x4ce7f85039445253ecbcbf393061759062e52a54060331db27947bb0e04b101;
 0x2ad1ccb6918b4dbb68bbe0389521d418f1930df1cffc91de8e8ee648a6a4e62f;
 0x119ab9bbd433ff01c7e43079d288d053e7e0c4a76facdecde1a77d544906b4ed;
 0x17d263f75f3d3f0d472bce50e641017a291f8466e6c03a768c138deb1b50f3f4;
 0x248be6746b30e18cc13259078ec848411532ad11d4506ac6ccde131495c9fc42;
 0xb02fe4295790760e1fa72811dd63502ea36bed8eb8652e6b35f4faf9b554312;
 0x148b519dc0b5daa50f0073094e87db4449c8a068ccd109872696973f9eb806c0;
 0x1bb5e7ef82c1a2a02827a2f16a34cbe60209f8475d3bfc0b6652e61f4113e6da;
 0xfb76804e630b9b522d9af08f1b53880f5cdc691bb22c27151f541fc8e1bf2fb;
 0x25f15fdbcc16e5c1ab1066d294bc774db9166ec45d4dcdadc4597ede1da532c8;
 0x18cf6ec7ac6dd943c57b9472b58af18929a94dd92a340b3e43c074f62b7cffb9;
 0x28993fba9683f72a8727701674e3e657fdccac4649f82879df4295e858857317;
 0x1fdd6bf585ede657728a4e97eadf195c08f8e6144b28bd92ef6cb706e4f6b05e;
 0x1810b0fdc26d123bac819ba150ffb6ac9455ada7dec6deabf178f0dfffab05d7;
 0x17935bc39ce241e78bbd64ffc72166b8d8054be62c494f3b89abf88810808fcd;
 0x23b66feb87a9b7a105923883b0ea0c73f795e445e3cb6f68c9217cc0ffea43ef;
 0x9f6acc9470a3ca1b06e023cb2f6d68a46ca6c434c521b2d0a799cc3f7b29a9d;
 0x7059db933a49a59d77c7dd8226ea452868ab183d14aa09ba3f62011a08ca31a;
 0x110283c2d84ef498d54d8cc89f3ccd48990382ae73b8993a3644ab9961b71141;
 0x2e0861925cc9b76c5b0046d8178cb36a13b26aa4ce4e5f7d3be453378928627d;
 0x186d7f00229ad745a0123ad95fae9d1136d4dff9fb693f954ad9fca972ce9d89;
 0x22c7a666156ed3e7813e98f60d15e23a461d2e9cf389a581dbf8be0bf5afd011;
 0x1cdeb50c6bcc3f9cd2f59588fd72fb929034685f88506e891f41dd572c67c360;
 0x2978a2a151c95155411e8acb3c12cdbcf929d675fb978e636c93da663800c33b;
 0x167e72f7db7e8e21f7daf4f02fa830884851d562c3b51606b52ad3e80d4757bf;
 0xe30a774c353a2cbf244d3d014d1a0e5ff0bac5e242673ae33f1bb2030feff68;
 0x1957be621bd6207736b0374c7077ef66cdcfa4bf575a16d2724ec94e2d764876;
 0x3b264ea2c2a171ce3bc6672fa95706ae37155fed16218080f33e469bc9b6e54;
 0x1cac742468595a01d58239fa27bfd73e5e4c811d31bf2307e3ad7d9f7a440c82;
 0x1308e2503e1623793102a3c6ef79b0041696191d4cd1a089d440e717d15675b6;
 0x135997d11a8ab3d418e1b34376d3193d0b8355902aedfdb2f29aa43278e2790d;
 0x6f8a541f16f9f3d8bb1757aaec5ed1fdfbe7990e7b046fe6deb8c6af212ff4a;
 0x9a4037450ac7d74675a6abf0169890a2161dac550cbdbb257ca22f4026ee4e1;
 0x1bb22813c573e8209b7100e77ef81cedf79e7ce616b229a7540505854c2612fa;
 0xd5235d7acd8bad965dbeeaaac39d599543b2766dad81dfa738988f8c4fecacc;
 0x24522e82642d0c00deb6406ab28a1867dfa50cd6d0ecaa0e18b6e5824005abaf;
 0x51808f718e4a3898d1266b473a2e0fa470b9ab592f9e1efdfb177a8f1b1a863;
 0x2ebf139bad53a7408b452fdfaf8847141346688e05da4e0e5b478c178bc36c17;
 0x18f177bfdabe5eccaa6dc0fc28f75e20dbd9e470ad50337724be79e46f4b4298;
 0x23f5e3e09744ca3e73ff2660e40ac6b8152e1c0a93e507f311090e6574458779;
 0x23fc5867bd5b4d52686ae8ebe3c1454e266bc576aec1f682bf18f783853d8527;
 0xde2e3ab296be75fe02af329d61d80c5c4d29886528315b4698223699ec70de3;
 0x2f4c1d3cf6793b0f8a707de4909c1df3f888a37f5f8e382065b500936c33d207;
 0x26bfb7031fd16e59d70dc1720d4d04301d97e07a0023e58765b2b6b735b02443;
 0x8f0bea4f928caae9d19e71f19dd85c7d700b1b05b3170548784677bcc4dce73;
 0x206dd86edb0388abd591546b376a7ae6dc433041b7d248ea75d908c4b3740afc;
 0xbd896df632e39aad4e575444b0bf49de0e10183b09137b8f79f704cf2feebe6;
 0x2188116488e4192be2569647ea81c6caa45d08b896ac14e497ded7a6b80d9852;
 0xe95540fcc2df2d1f630191f9e5f48b7e4695fdd5f4e9a7c930f16598b3e9e53;
 0x29d25da59f9b238929d0eb4c669216770673bba9a48a1160793ec66e75259040;
 0x998c56e22c0fe57c936f19774ec4368ff33aca06589807db3a1e8138395b4f9;
 0x1f460a24b80724cb88af9fd2b73b512e6d5fde9ad6d0b73801db0cae1d0c0357;
 0xe30a774c353a2cbf244d3d014d1a0e5ff0bac5e242673ae33f1bb2030feff68;
 0xdc5b4d3482661089384d18500ed0afdb1a635c006ec67b3137ef97cb03d27d0;
 0x22c7492f2fa7b9f297c2f0365945ce0e262793331d3cda1cb73d083fc8a0e21d;
 0x266af95c1174ed0a5781bad21a2397578ec4d16642d729c4daca8f14f6c86a91;
 0x14c46169d20fa3e4a67fd8da381ac224d61cef48dd27c1971273519b6f9b703f;
 0x1269bce1327ee515c7de22ced7aa99a4df202cf661ea0f2c520ce2a721a640f2;
 0x172bcf2621fe4e5c2919490728ee5d19f6d1b3db328addcb2f70a792490e9bc0;
 0xf26dd040a3d43e4788c20be85b4bf774763729fce73037ae53a5f490ab99c49;
 0x2fe304bb2aad7c3a3fe30b77087600d1da7ca2d9053f7ed264c1865cc8231907;
 0x2e365d1b4f6d9946faf2ba71fade06bbbf2f8475eec5a56fc4843765fb4a49fc;
 0x25a82f1231627dd4fa32b82d274658a1b64e8ebad06ee903aab649e32ffadbcf;
 0x2cb9324b95c056a7dac8511562fdb8049c4f08e6fbd3ee222bab96ecacb89c9a;
 0x1e3c03ec4cccb96e93e7b8fa96f6915a0ea2f392b4f5ebac5b2f251013fcd3a7;
 0x21011730617a2b7c760f7758dfe37725189c39224023ff0d819dbebb1a81c07;
 0x28b05c0a2e98dbe8f090863730a24b597d97ec3adb4a00f3f1a176d02f495138;
 0x27355701c30ec033287bc103652855c341a8e80aed9b0bf7a1633b3f0ab11a43;
 0xfad7793054577536c56651b9585ad1ecc2af28c4065c6fae4ff47df4289d5f0;
 0x21bb038dbba587b85cf0fbfcd5e69de9f329f6646bdd40e8e27a107161f624b3;
 0x21b1f094f3e78cbf60067b3b785e3b3f24c4161c91c452318ee990e07e225524;
 0x52d8b24d73c86adbc8311390a5b2c9b6300671f92717203ad7c463bbe0789df;
 0xd7039ff767a3d8bb07fb62d6b2ebe8c543277e3da1531da94cc861d4574f648;
 0x1b916f0851986c4edc2b927aa8bf9d92178ebe75b77552ce47a63ef70409bc03;
 0x33cab9f4d3c360924e9227254f4f9bd52fa7712fb518e534f9fe69d04d994e;
 0xe26a5327b3a023b0d1a432d4be5f7f0b09f8c4143ab881b985f2cf7e458fde4;
 0x2ca57bd0c629753607a4c9e37b783668abbec7e8e306f75b88ba97772d371595;
 0xb7533836731172ac9dbb56e54588a5eb800fd80d6754af74fdf13460c340ef3;
 0x28c3653d647bd221d2b3c79f3da382a937cd1be9a33232748f04f8e1c880bdad;
 0xe30a774c353a2cbf244d3d014d1a0e5ff0bac5e242673ae33f1bb2030feff68;
 0x7fc230b6a36abb1c7f4b7504fa51ab01aa880f7b3c0a60eee1637ff68889dbe;
 0xbbfe36421ba52a2fc87f6d7976aec0165e41aee0f71cbfc87f41b6b965ca6e6;
 0xfd2424b028d4d8ac1a8c66e6306af2c3df213a3a7979e367c2957eb631f17af;
 0x1b674725a1f99e1dfeeb07dffa4d961ec24a31d433d83f858cf3ffdfd2fabaeb;
 0x12c9cc35e0ea2482935ddba214f21a8c08df3dc9d6b29f75619f9ffe0d055f10;
 0x1ad3b10f3f584f4811c804d95b3709ded70c5a7d3bbbf6f91339943d85bbe21c;
 0x2abfcda5b9f799b2d0af0861c17c33253781df51eb186a65eac958b34e8c35a5;
 0xd9cf52fd20c189982504d02aa80500a5c732434dfc9e7cacaf08ddc0d0c76dd;
 0xd87620da15c58c50af67bf3533b399edf83c1e7dbc0bd9773d40d5ea287aba4;
 0x289e55051ec741e27389dce0eca1cfc0fa57be3381c12943fdfc6aa392b60af1;
 0x285ec1799c195e638e16e4cc7fe5bb7ce06b1c82105cc4d61385dc2d2ecbb979;
 0x284ce6e7141920ad4159f9c97ee921a24cd188718f7000f1ccb091067d4ddeed;
 0x2403b3f3f99fd0daa8ad77cb3f8d515055cf80d1d5e8d32e4e4627e95489f57e;
 0x2ef65bcc67502169c5c5d324e09297b7253302c82a337f00033c814aa33d9cee;
 0x2b1ced8656b92329d623a85ee61e310495566ce4effcfefb6e6606ecfcdbff4e;
 0x2cf6166a9183e66bd94be5aae54afff0f02cc6eb68d7456cdfdd86e0e7f0719d;
 0x60d392a31de88d78b696e7238af3ca3eaa5e412437c66e59d7049b69d2507c0;
 0xc2b62bd89e35735926f6474264c899eb2b5956738a478b6e76d792bf420cd16;
 0xe070af64e603d24608847ce8677d0291e08d5c10ec31f23d898d716f1c39d1a;
 0x2de645e3763155f48ca18d06dd21370f314e26382c6c9e883d84e387bd892893;
 0x17deebc35147ac645572140ca181a81785e74dfce063b37e326ce6e79c66a6da;
 0xb035d43bfeca4b7a464054eaa0f892cb035db06a3150ad9ce1ce45f6ad0b811;
 0x100c78328ef5a499443541c1e27f78d0e77f65f93738e393bdcf4b098681be52;
 0x180cd1e5a1262087a60bf156e8ed528070936923605d5fb078f4f6f956a55aef;
 0x1409c9afb266f52723089bcc3b495bb15c9f10cb55b32b73dead030f87e6e24a;
 0x100ee62d3a9d66d3b6360f540f954493d7af73e6cd95a10ddbcdd79d6739fd38;
 0xe30a774c353a2cbf244d3d014d1a0e5ff0bac5e242673ae33f1bb2030feff68;
 0xf8533b51bd9ed54a1703fa8399239d3a7fe77b0a55210917343e09342a0fd81;
 0xa38a8515b1393a083782c40f7261e921d87155c081b7039db8f409beb2dc8f4;
 0x1dbe26b8ab56c6de11196b0ffe7355348b99083a94d2f2966d227fde43821f7;
 0x2fae58b811204fbf3232b298e274df120020289d06ba343bc9532fae7ccfa76a;
 0x2c33c971128abcaffde44567163b071c1c845d5e04e4b3e4f3256c690cc61efd;
 0x1d6879298603d7ce919895eaaf857157bfaf20b46ebad48c36e85927e004967d;
 0x154e2b495b2894e24c7b64fb83c0473186b256f83de4e7b5f82abc3e97b9d176;
 0x1108e6590ee097d6177f9b0e8f6df631e91ca6aad1744fdfc36a5a7cf73689c2;
 0x30e4cc0defe07e0c0ffc72ec35cfa5f902e564359dc27e6f500c921db4f22c2;
 0x1c4f81779c8633490f3e3e276603162c4a5e42fe6db58a53316f805c5c822922;
 0x2954c55e5111eb033ad80c867317b4aaba9d750b9f9bedbfc48abe8430ba3c20;
 0xd519d7237511791c479d178f6500e54532625fef17aef20782d15be156830b4;
 0xb18f5604bef3748e0e8ecb40e7f636d2452a42ed19299820a5d41241e3e27ac;
 0x2719c5dffb3c5e099e2ebe58e16855ef505dd10daf7cc2f213113ff647614b42;
 0x16e635dbb0038d05bd950a92b785afacb3fd0e6b86cce3d242132d4f1c1c0ce;
 0x3920a662038566aca072b265532745baf239bb3e60326891222047605015b23;
 0x2c4f137391f3b5e4e6024a97f1c9cbdedb1297d123add7adf4d6461ae5a875bf;
 0x2264a7d603db95df9f07582fb03dce9340e2de326cea846bba043b0946f812d9;
 0x2f1f379f002c49094dd938433a986b519a123c4d9d0189d66533665d0745067c;
 0xd29276a5ac511cfc3a3fe7b9244d4b7010cf0bdfa90d7df0d6c4000b9585d45;
 0xac3ab6802fcf30b3b6d2b1a69e54b3699179b4f30b464e0b71b6b4b6b1124bf;
 0x2dc0c34175e61183601ba4dcf9ffb457defd36abc2e24babedbb0a9450155fdd;
 0x6fd088a7bca20b5570d68665ae17172c13bb3698f3640cce22ab74ead7c5663;
 0x1de87003640c024ab5d55c378a74e14e1adea072f8d22ee932b49150dfd1126a;
 0x2e01b475d78e669a868129b1f173a77a0b28d82a89b4ebbfa274a0a41eff3e06;
 0x1ba9c82ee2f9ce1b70390faa1d3c40585d751775bc8596e32acf34bcfd58f814;
 0xe30a774c353a2cbf244d3d014d1a0e5ff0bac5e242673ae33f1bb2030feff68;
 0x2a61fb95295b3b5c0949c486673d1ce6ed7328f42c9dd1c82e27fa3dbb0e3bf8;
 0x156befb6eeb13f52ba65eb7390b7c812ba6aabc5d1acfc189b95f71fb47db283;
 0x13422f783a978ed5ce35e1540d99c3cbc67803de00a3a4fdbd37f7c120d7aac3;
 0x1995d00ce7c99415c2727e89618e705a87fd4456149fbd899c40f43320d5ec8b;
 0x24ebb318e440a45956fae1a46a3303ffabbcad5acb8cf98b6ee6805672ea84b3;
 0x2c6c1b35e7979c2e34b071a03101db8cf753b5c26193f206e2ad214ed47387cc;
 0x2fb55d17e5a50b80b168fcdd0d618f2da007510bdbc429c5ed7fc9e9a1ee5c0d;
 0x117c39033ac0e1f5f8b57844220b7260e3085bb99925eaf937d4a43a06bcd2bf;
 0x154a4ff3064027d0d4aaba2fccbb05fc4b074ad7bc4443132ed23c5f03d38ef1;
 0x16ea33e7327d3fab4e15cf66ccc4e99104aa40a4ae0eefbd478517475c274d62;
 0x7af162f6a41d5623cd47181367c6f1f5ee0be7b9e0b53fb8097789ea9a0cdfb;
 0x1a732e3765405223cdb6eb28abd2d425dc7d1cdbe575e08568e1028d8ddbc398;
 0x1208ce1a3a017db5d1024920a6a0f94fba55f5b88620ace2e180c3d517163641;
 0xbf9ac6ccc83f71dfb86d40b19b7609b555fbc1ad465b09f9b47b21cb230e174;
 0x1ae8cbc6e5e4b91ea924aa8045967abf4d22d687639e7f64df40e1baec14a3d0;
 0x2a1be1e4d0fddc88eadca5e835f30bf7ee39b0aadd995b48a7ba601b87d16380;
 0x1dcf4c29bab85ce96ae81703ff26262a09c8895f886a71c01413d440a2f783fc;
 0x2bde5bc567bc599e209587d01a8e5b83c9f27fd4988c978294ed9b680b03047d;
 0xd7f63416aaa46e1a5ab07653c98721b3848f7f40dda0cbe24f5be957249bfd6;
 0x201c0d5ba18737cce0bcf6069d82ac70b7c6da968029939fd793e7dfc11997c1;
 0xfd4dfde771c21adf5ff971e0bd0301b0f9c0079a5ccbebf6cc05a578218cf9f;
 0x6e26ebfae0d7f5596bc1719d578b1645bdccb473c802820e8d1e73ba95fdae5;
 0x153a90c4a4df503ade4670a019c1c539fa9abb1d7bd85c5627e2a236816e9e94;
 0x268ddb0d3607d6d88ab21623db322f70881c865d1baa284eef7b6f504649f5ca;
 0x10ad938c2c97c8785232011e8e9956ca87ab31b6e9947a3f5a9cb2dfa526c178;
 0x100a9d42b7617d60e4b3aea5150d059bbe751456c4249f0d807247629e61f0c4;
 0xe30a774c353a2cbf244d3d014d1a0e5ff0bac5e242673ae33f1bb2030feff68;
 0x13bc85e2ad431df8a6705d1990ac925ccc3df1282405746025b8a5b9dea661fd;
 0xcf2d89cb39c2d88605c0a34e07eb31436a77a2909604c6917c1c8ef5b490d8e;
 0x2612eaba8d6b833432665b1334d612cd9bc430a3bfe2ebb3e34b7a9d878f4054;
 0x17f2915802e376c5827e719a6890d90fb067762c96bb3bb86bb34f2f14211011;
 0x1ec7edddf6e2543f5e457ad0adfe66ff55ec07302a6051d90797b65380b8f07e;
 0x1d4406aa079fb976bf4d8a3bfac81347bcea2cc9b8ca732d3064f9413f202082;
 0x29b71a20d311389c672d8a857b34b04e5b4c95624ca72067879cd312d8b17cb0;
 0x6df0c4c7d3b8552c2298f518a19665ec355cdedba299b20eb193c67c0e72d43;
 0x26779e10800437760c7bc212ceaa5d63d53a234368296d667f1d19784f47cda8;
 0xed1c5edb7053068b07ee60910ed3d1c1e41684b276a0ade50c654de10a44cc;
 0x24b4046af28ee5013cb1662a81ae6b60c9431724b3b16202a5d9d5ecdb0dd322;
 0x2710607671674451e9da2932f51616f1478e7440017bcbe5f1df1031baa582fe;
 0xba845a38009864ca2478e043645bb6d035ab0ae20053ae65c99ae914819878f;
 0x15c5c54f3efc26d2836a2ce81c045bcb20e137945f8a64ec93b50b05fcea1624;
 0x2f416e4189aeae931290aa08d84764da18dce217ec716ec1ad530d21d035c1a6;
 0xc92385c63d6c451389a83dd7a46784f98852b6ded3100b65a8b7c5b96d89305;
 0x222e8105aa188083af23785e36e1eb3b483fec353b832f97e2d66d79dd0e2926;
 0xe98d7f5e45ac6610fd164ed687041f2952e6dd3c9fd12ebc8395a6893ae9fd;
 0x11591f35ad1543a7a8398cc80d8d46980fb2d5a91848942956072a3b58c3fb7c;
 0xfda43471cb17ed2c9e4ad1bcdaa962da09fb99a5bf74024d3223784df4e043d;
 0xa12e81049a88849ad74b40f381be30c2c2e9ec8d8c50bacec5d1868f498285a;
 0x7c6d194a73f848f7d716d6f30acb48ac7baec5affc571b6b8b6b84996168339;
 0x194f847f3c7d048a1937426a78e0784cde6075dd3ecaad21a4d8b0c29e6dcc58;
 0x478225c0df10ae1047eaa6bb766c7cba55d1b2f4ad2c92b579287d4afabd622;
 0x7098d85221394b7dd9d5e01bb8d8fa324f52cc50a01d04959f7cf47a9d426ba;
 0x152237727876536fb0492b77e2ca5083d39421c48dc34e5079a33fa3d2a86379;
 0xe30a774c353a2cbf244d3d014d1a0e5ff0bac5e242673ae33f1bb2030feff68;
 0x1420a14de2cbafff2579616faf1bfa74f7c6542b053a499ab551a3408f0170c1;
 0xb9d1c211a3135cf248f2ce8bbd1fe9c687788d37dca581e76ef796a06abb333;
 0x2d90ad8b96b95e07f313d485195a90e8cdee4c30fd11b740617caa864d20ba4f;
 0x1841439f401d20be41e3aa8154a1ffb5b06a7cba6987fec7f41df5f92a6bc91d;
 0x2388640642c291a6a1eb98d73ea78b7d176c2b70c6d9bb637abdb842c0f4a78;
 0x26847393fc7364e97651b2b787111e2863ae61218c0a21b8ef93292d6d3f59a3;
 0xa97aa86b7cbf546c5722540fbc3257e37e701c44023e6382785a6b8f5e2aa6d;
 0x1e66c9e1d497faeee46a478ab27fbaf5f9af29f43fde16f9a6385e0d05b17930;
 0x15dd9d1744c08352420e756cc25e76537e8dcfd70c5e0dcc445f77560b730ee8;
 0x907dbd7263cf90b8cb5dfb3bf60610d4fd44beeea309945d8205cdaeadd2a2;
 0x233dce7ca21fd1e909e98dcf2b584e9ad879edeb0f395bf9a44aa7fd588ff23d;
 0x28d0f25cc88f3d33af54d011063c0a2900fb50e18d1517d52d63ce72b435a3a6;
 0x20db88c936bfe7c6e86126581cbf8bd7edddff26237df67c02777070d012ac71;
 0x27531eb0037dc5b938ef188fb167f38039f82f2cffbb8fb6511b05676af6e230;
 0x174c8436d7632117178d777c3174aaa21b1908cedef20997afd4f9de59dbaf61;
 0x610a7245fb111b8632cd43f8d356a839751a7ea383870e108f45815e7dfe527;
 0x51ec3ebb56094e6fd5fb48401dc97a7aebc08c0321260a03ce15a64401d57f7;
 0xe79a17117660b79651058aaa102bf530a98c0fc27890c0e572ecc6d6669c36e;
 0xad64295a0a164517040af0cef26fa9e39b1ea67db4ab22db5d607c4fca3de99;
 0x2861d3d53c2665d9ac962a2a78fa4fe8cb6e81e7ab229f66c432a80dde7116c7;
 0x2ffa7a7a62d5e1bd03cbebfbc5c758444ae0d0734c4a5d667a158fba11a9ac8e;
 0x2fceca53023c3cc3e8991961644decb60806c5e26bd2ee6459424033cbea06df;
 0x1b315dd83c8b16a2aaeb9119436076344d2fa321f3359d6a9ef6cc15b45aaafa;
 0x27c786865b0c424bc2e21f43f42168d668ece1b7707b62b6ea77682a60a4b1c8;
 0x2f55ac5fe9c4deeb92cd318504423f31894b80e6a340fd21ada215856fcbf5b5;
 0x8484c73576645af031da8d059f7cacd28c66906a7ae10ad91c196373601335b;
 0xe30a774c353a2cbf244d3d014d1a0e5ff0bac5e242673ae33f1bb2030feff68;
 0x1f1e99a24da4de93564a110744d481be210f6020ad98006f0bd4610a054bb397;
 0x1313ce9497a6e074c155fc0218d858202308ed1c1241013fdb1b23967fa23167;
 0x20dd2b7ad2c4f1f1d19f18b29a3ae436405b6866b8dfc4fbbf0877fbb3e7eb1d;
 0x1d9a3b14077a7c4d585632de9c1e0d4a68c71203492d5911cb16f3afa68bd2e1;
 0x1731badd5397325e2221f6739002faa9da0372fef8043ebf93e4627a3fad156c;
 0x23e7e3fe8c10b5580a79f4c3298c8e1862b7f5237942f23a5455d4eac9275685;
 0x2c014180a6ecc47452808fea233b82f39e3b7caf0175687777ace7544a29e37c;
 0x292a5b755731fa19173af35e46536550ab67aaf5f7302a003d0f6df204e8976b;
 0xed8c6981ca41600dba450a860b85784655bc05193481ddbe475de4f351d243a;
 0x1a19597908036c20ac63ccefefe74a7d4a34247f7471bfa743f7d1858c8fbf19;
 0x21d82813886827e8c1985bae1dd3b8377bfcaec6e7fbe0924232f059501eb278;
 0x1a3ba88e071dfb03e2af64d4efbbab382517f94566c7268650899eb6bb1971d9;
 0x1d48d408a857660c5fa36286c7fddd68d2a4831cb0cd055f950be3c3c9607347;
 0x23a912ee06a717208ac5f8e94a3ef1c0dccb7cb14a2fc32be71d8d25e65827e0;
 0x24f16318b8064d97d3543dc09c0c2895745bdfc96371bcc99b5c6d6ff6af3e13;
 0x732c0b040e6bffbae6ac8cee5748cc4b1dd79559d2b84d73347e7868ee45e36;
 0x28d961a33687f15d8e4239aaa2edaab1dcfd543bd30437afc151cba1d8b6f93f;
 0x295338d4f509a0e6ac18622299635bd3930bbfaa4dec3b885b817bad870885dc;
 0x20bfa91fd05c7fbc2fab0619637bf4fed31f95731d89c2f7040f4c893cfab9a3;
 0x40df188035ab2406a932606a391e146c51463a5129c2bc5ab3416e6455dcc03;
 0x2483ffcf685a6a42aba1af8b1c9af41b66796946957e69947f9790615422c61b;
 0x285aaafdd3180b1543fc1994846ffac22fe06908e5a6bdd3fa3d22b3644b6ea7;
 0x2dc5f343de5cf59a69c9429e96289dc1c4c8cf08fe69184b68690f33e233fdc5;
 0x6e3d7b62ce4436fedd0a240d7a777adce79716f5a22b5efeeaad0abf1e8b5f2;
 0x1482cba9741ff1dc43ea1fc5189a2a59fd5b2bc2f1959c164241662658f2507e;
 0x1348498420e5f9e977c9db960818c96b1f93cf370a2380138bbd56e0c9d0d526;
 0xe30a774c353a2cbf244d3d014d1a0e5ff0bac5e242673ae33f1bb2030feff68;
 0x14fe503bb439d34ea8eaa57cfa1caae71e4284521ba6240b0afba874b93ae8f7;
 0x1f9c9a83a952c1e72697d8a93b00a57bdb092d66ebde1ad8b169343f93c3f8e0;
 0x24fbb0c0f2ace05a5faf061867d2cefb35494ed9fb7e5b590db562486c88b0ac;
 0x10f738bd7905a3db9f0d6fb73b2cf3c4877dce60cea5925d5bbece78cc5516fd;
 0x2a62e245b8b68d45298987ecf40a0a3419ea8653e4da0d6a6f55b2152d85ca67;
 0x275b72887f4a3fd32bea4bbf47394106963761ef3e007f2f1e4460140896c168;
 0x1552e36d16435150e476fa6665c4f058355854cf2202d91573072ba3dfd2807f;
 0xbe9ef904aac486fbddd1b8da7d57f9ce8d1bc5fc7ba2abc179c1fa20873b597;
 0x1e81ddff4f76a1b2dce1bd10aaa16530f8636a0e563bf33a02cb9801d7f762ea;
 0x1c9d6fd38c151b16888ff3ee7dc7a8f653fead50f462a6045cc6bdaa72231de2;
 0x249f6caee2d3f22549b753cc0857a89a85dc00258402594a5ebfbd7235c85a4f;
 0xa5bae6c55380bc6c3c5cef4aadbee3d7ba2e30ace0dec7fa2c3e852bf030798;
 0x1a591bd8ba8f5c6e64b984ad9274257d38caaf25b99cab177c84c8f0ace22c47;
 0x2f14e7a4d071ec394f43f46d60b1552aa9980bb50e7c963d42f483da3211a0ee;
 0x9dffc259c60af5ff5822cf8a170477695ac5775dc1b90104503cac64914f86f;
 0x295af9152dc405a43b353775e93828dc0dd1ad4657f1f324f75e25fc67d355bc;
 0x4ed39653bd52f01b25db50f75b0f9a7868dacf3c6f2999c23bf95f58cd5333c;
 0x10e815500f22b57ba8056deff42b51f4a4130f6e6d364bc1de7117b9023c0b37;
 0x2286d75a72832bab29d58395c45ad419d3d1273062c893a70c56fe9e38750886;
 0x111df543f14f2ae7ada849b80d01be30e23fb49ae805d09afb7a1cc98057a27f;
 0x25c1d1e13619f1ad04831b2339d163ad83da3809a89efc10610d5c62bc03da3d;
 0x2fa4fe7aa2dc0ece1dd482768838b9ab913010539fd9a94c00528b037e4f8ec4;
 0x1950f2d47f38a0976e8801a03edd51f982faa74392a70a0d381194dc258770ea;
 0xe6945795a878954644fd4d36dbdfa856c6b1513c8c38dfd71e3f6f648d568cf;
 0xf15e86e69bf0d747c7eb9d100a26930e44b558de46b2e9246c4cd269f4e0707;
 0x132cccee9c47ea27484dc9d759d93d560988d9a42ac6f90be4737761e0d438f7;
 0xe30a774c353a2cbf244d3d014d1a0e5ff0bac5e242673ae33f1bb2030feff68;
 0x1f19d5b58c771b1022d6aea73259634d1c9e1db227bd7face0cf3d7ec6f04a89;
 0x9e99a9892ec5c92fcb2db34f0a80d01f93db6675b839e54ac081e2616efff4c;
 0x2e39982857d71f53bdfa8b2d2fd8481727267c00bf284a011e75de1090b5ea11;
 0xa4c0ebe2118c2ac564272eb8f8996dc8ffc649480a144bda57e7c33f14ad552;
 0x25451345b35213964ce431f6f9ecd15934443b435a7f175abd80d97d999fda60;
 0xbbc4376c1f85523bc7c8ae9fcd8a172f4a4f9905d09f1de0a6d48e273ee9809;
 0x2bdd1037469a47d75d5b8994731ede44306e137f4460f2ac7c178bde7bd9fc6e;
 0xf677b2a55e756de8223dca8cbe59954989d27ca87f57b8b8e59078ee30b2748;
 0x2fb0b17b679ed6fa3e528b009e444bb34b173fe18925971a3b6777863a936411;
 0x8e4988e8ab1a27420dc600aa4fd13ea9d701291e005defdaa33e0df72d180b4;
 0x2aa3f6fb81b544fa5d338c2a7299d28d499bf86f77109ef9cd91f3156595f0f2;
 0x202ce667a6cefe69a1d12ec6f0b7674cae7fb0e02dde42e47fcfeb6afc011bd;
 0x13fc451c175cd7d0ac88a8b7013cd460af9f68982753e01eb0b9ccccc2c7b57a;
 0x1b86a2f0867f4a97d6f2ee4701f23d7e05c7700ae53c0d57284c69e170e90858;
 0x1fbf812f6d014d7c0134b54d9d6aff50f0dd76d7889926aaf59e86e69c720821;
 0x11ae5f1bc0b2f10956e35b2a125ded0ea4b312aa52707bd5e98452f6ed0d9d2b;
 0xebfd2844a28d08df2ccbddc8d52e51bf9714e9279ae25b7f7015d37769c76a3;
 0x1c9e2830d53d2fb38ec3fb2cd6f45061058949dd18312b212fde7082778eb970;
 0x2c89a19cc675823c61843f218bdcb0cccb5b9b4f0069ddbf7e900fd643c2963b;
 0x8da85ff8b6200e090cff0a2c2f05042e30c79e425907ad9a055a9a2a496e73d;
 0x960180e5d5ff549130360038aac26bf7d2f5828e88327a1fbe2227194ee270c;
 0x17ea53188c77a5760fd3da3213f549e5a45c743db6b27f4f1af87e4ef28609a;
 0x1cd300160e5cbe7b9cd7ad1180598c065a08ea594897a8b2c667508e93aad2c6;
 0x1b8db86cfd31fb27ffd05312139ac8594e4b9a587927f1d5fbb378be75fdff94;
 0x9ce92eb753807b4cd89cefe94e7f31b0eae43b4cd6b97d8248731cca7817df9;
 0xf953e8b043a5bce5c459ae0c1758ee52707f6f0dfbddc5e407483709df22a70;
 0xe30a774c353a2cbf244d3d014d1a0e5ff0bac5e242673ae33f1bb2030feff68;
 0xe61fb7e75ef9295c4189d5926940c65bef29f9460fd6acab96fed3d1be3e626;
 0xda574faa3851b0f89ee096792e722ef02c0e09793b829579e62d43e9745078b;
 0x29e8bfb4394174320d8c3521f9a665b547cb0560f726a0d70f52f613b0f24686;
 0x138864a60c066835f127cc7fc18ad0bc92774eed55a5735b8f4e58f1c4de54b0;
 0xc4061a8556cba5eb98d6966f7014b7f093e6c16ca1c498bab266918efd24982;
 0x29a31f9aaa8ddea5ffe0debc4ca6968854ac196215df67c09fcbd03352180b8f;
 0x1cf3ae0b1b9b5d99445a7f94998c5e59488c6041a6205045683c42f7417b8a57;
 0x297c9cf4083fe500908bd1f4c886306df9b080e77569a534c558ab552bc61a14;
 0x1fee3441a345869bbef74446fee4f51e9303d36e0a3316905b917db8b33ee846;
 0x29f81a706163b55c6e55324777703a9303ef8bc5650160e0f46e5b800d62abce;
 0x82ef985b1721ecc770cb73b1287f745769f9652c7aa177e43706ffb01683fcc;
 0xd2909479aba19cdf059dfd28915cb101756fd0be6fdd65af27163d3d4db80a2;
 0x2f9cd946fd1c2dc74bd0f3ce5737ac83b1071b7d4e720bbb2d8f138c24e9f336;
 0x24ec8557ae626b291b510d9ec1bd354247dc3727f72832da7a79c4fcaf8cbc8c;
 0xf11a41f841b89ce70505543d7028f8c852cc0df7c8d840917239c3724114e6e;
 0x114bb82795b43471c48a7d4f21e17c270f98c6907c37f2fb1f99856266cb8089;
 0x2b62ff5f01bbb491c744a8286db0aded602f287abaec3b1fb1b4212e58e6a4c1;
 0x65601f8bdd487ec395b20fa5fc276d78ba591835f481113b3a5c59b005e499c;
 0x1fc7286cd0168e84301b48ef87d7cab67e45883e166ce3d5b398389230d9ae4b;
 0x795f23bad239c2e465601e109ffcb16e153f5e47a47354138940d99088c5069;
 0x2e953e715e0c47fdcd618c2c5291215a73d3c1a29bcbcb7b9b7d362f211072c7;
 0x577b3abeddb1cba0385cd479d5b80be73ac18ea5564d9726681d8c29857b509;
 0x17f68ef80fe53b639194195275d6dd5671d2016e67b777a0600d69fd4e72384f;
 0x20ff4e58659cb0932f9be3455d13d0e6591b12da8f4c61489013cf9060b12ede;
 0x1e22384181c19d8b6c515b275db8401e900192f0ae54d144fa7c43c0295de2d2;
 0x2b73bd9ba3aa22ee4fcb81ac91cf8ad03f66f640dfbb1cc7b61a83c4e7aa2ea8;
 0xe30a774c353a2cbf244d3d014d1a0e5ff0bac5e242673ae33f1bb2030feff68;
 0x6e077d5c2e4e5c9705827a87bf1d03ba0d1ad0d1ad6ca1d634d25e4c66a0a15;
 0x121a212dacbbbc0ccf4c3b4292f681523da7c9e1a46e1ba0856b900911e4f84;
 0x14a5405a71e3bf12ce347c54fde1d22398fc616db34d6d6ec57d8d0395589341;
 0xf09fa7c4eeaba22ff000bda61bd7d4e87734f3f8195b38bfcecc6ff221d2863;
 0x16c25869bd517bdef88345315641374ea86e66541f12724938ac7dff3fc14353;
 0x293cf96970b904d201ef1baa8bdaca1321ad3ff0d67548d7ad07287d2908518b;
 0xc5f2232813e8dd413410645a1385493ba715260b3d968149f307b53ecc793f8;
 0x2e620a39a57898eba4992b7a1b2bd9b0c28573a1ff470f544c625a60ef624173;
 0x1c68b64c8887d3dba495c6bb3608065f7b26b8d39050099770330891de2e8722;
 0xfe00e735c41fd0086afc250224c2d48cd0e771edab73eb5e75c58f957082478;
 0x1b668eca521af2f9222ae86819b5aef6d32d8179275e7b98f6b9c314b62653a9;
 0x285025c188e98d4e6e58b0eb6dd46fd1f8d26ad5199eb9b647e99f70472dc4ba;
 0x20dfdbeabb8900090725b38f84f661cd2ff5b11ceb3c6835ef698f7d8e02d2a0;
 0x7d91adadd5a4f674b69907c533d124ee9f15988cb71a732d1c31888924d3729;
 0x22c3db5b12155b945c7cc04c0cdb534db2f8836b88742cb32db40fd0e46c9f7e;
 0x14b640a03dd9207764cffecd90500a5f0901946bf55e6f37b4fb1764baf8382;
 0x1e9b912709e85957b58fa0e0d424c7262cfcf3c0840667012cab0d06542c6594;
 0x1f4a75e965d66b9d9665ddb5a15ad09a9d688eb2b774fc8a86af46fd72796bd0;
 0x3d5c637f69677e08331c185d53ba9759ae018a832da036e31f00dcee14513bc;
 0x1e42641bb29a48b1b9c8a187dd6cdf6ba6029cb0760df90734b5d3bad8e212b4;
 0x2d80ba897d626e0d3bb15479044bb007cb55262149e10f53e63f42a53b3e87fe;
 0x2071abfa33f109a693fd07c4da6a5ca1175ff0413513d36add5bc72012e73a1b;
 0x2857675a3c236532833e6c04c6c9cc91d4aa3e18eb8f38cea6e421c4933f058f;
 0x9d0978a861b9d85265039a22191824e4974b2b113622dd453c71b0b1f8ec663;
 0xb1ffb601c946e8089d531bbb8bc34d4a36e257e8596c47a3c773d71c68602b3;
 0x1b8cfc651b9b2a51849dbfa72c4f39ae01b098997b226f58616383513c76ac0a;
 0xe30a774c353a2cbf244d3d014d1a0e5ff0bac5e242673ae33f1bb2030feff68;
 0x27d167fe78708447e11dd1f9e1342f67a9d2be1dcccb7c0bf1cac60b0d1f956f;
 0x2d211a9a9b13bee0382fb707a0744ca47b3cc0f5a0afcdabb5c34e52dc8fa277;
 0x41215a7139109b953e3f75f039c3019d9a32526461cb1e749bb5e4ae9e6df14;
 0x139255318820d9f769864e4b9011bdcac24f5491a409c8d0088c0687554d0d28;
 0x26dda446062c11b3ee8a7d9f8383db1f189859d91a03d35e92c2ae1399b994e5;
 0x2a9d3359aa3ab359799d23c03f3ff677ece3080df978214c9ba08836846e31e7;
 0x25571de296a11ec26c7f5b378dbc5837c3e8cf09679fc63da463d5a26e99f24;
 0x2e9d042c2deb3cabd6d758a54cdeb282891e695d463cadaac01a44b64981e963;
 0x1ccfe17477787c3bd72741265e5ac419cf04f60ebab95dda3cd74efebf34af95;
 0x1aabcbbff42769176f05c33ed6e957f6efb3f404451d83c6c107313eb098d57d;
 0x1c3a79dc7ac79b401429b1284780f82052b0217a69adc6ce431fb6de7075da31;
 0x2451bc265dac3547353b487c443d19230f1d4f305ecb2d61baea643f183fd1da;
 0x146ee9dc5bc8dddb22c7ce8a3be636d69c0c0609709b7d183bb8a5230f490c14;
 0x1722db13180d33ba99b8199a7e6e14bfba7ddceec3bf35161a7e875c336fbdf3;
 0xf90b19061d11f2a032bad6982196c3ec2132eae07e73a7d7b7aa1a1353712f6;
 0x29dc1b8c70a75052d431288905d64240c6979f04290472b941f943deb7f7893a;
 0x1cbd570d3b626cbff744b8fab455a37c54760431142aa6780e7b346a93f32fa5;
 0x122e0d5aef6a9d944211b3087266a4dfdc64c2c1e129b146e4b45c93e8128789;
 0x6a2e87f6c251c2f8a54661ac4c177f2ead8c66bd42cdbfcf0642e4b025375c1;
 0x121b14b512f2b6767bc67691906e59d0c6f1f4be4b77e15e277526a51dbe1a62;
 0x24337459df3d36f14130ef1c8950fd267b58a86b37c30ab87d57245719f3843c;
 0x2d751407d72c38bd7803630b12fddc7a076db32d9016d3b0a938231b5f667540;
 0x1fcfa3e97394e1057eb5ef247b47a0f610ed67d67225f4c8a246f54bde575cf5;
 0x1ce46568fc2b31fc458c65d79893bacfb0cc96b0e08b51e85d4d5432e2447e84;
 0x2a2035389af7aac382d3515d999e6a687c9c2e93918c56253c6ae9695d16d79f;
 0xa7485a573492c38febb77b703b0675290ec615974c9f705fa63b175628b8548;
 0xe30a774c353a2cbf244d3d014d1a0e5ff0bac5e242673ae33f1bb2030feff68;
 0x3c0b95d22504012438e7da78b1a5dbeb4f95569d68fad5fa51f126e434251a;
 0x12422748193dd5410de675c58584a4b6612ee3cb8fd929320a9e70720756cba9;
 0x560d13602278afd0f96096d2554342cf3bc86970f27fc807dce69bcc0b874cc;
 0x1339418b7b039d8e68260015f55b9d91fac69bf8232722f941738aabea21cdc3;
 0x1cbb466b02755d32eb5d7924147801125833e9020af6f52be688e5d8c071bc77;
 0xf5c38aa299be85be03b8f06c2908f0aafaf67662a714edaa407df93fd1a327f;
 0x6445747eda857a8191b68e27d640cfd91d68273e54d888ff057001e476f00a3;
 0x1604659a656d9ed6e5dec461a593c3eeb6a5be5dd722675425cf883debc696ce;
 0x11fc146f9aa45f748a6cce102854720cbfb60f5297ed2f77b16c9f8ec9a4acd5;
 0x22ebd4f9bcd07c59828633805fc99370cc17c8a818e04281fc862f425a83fae3;
 0x51c3a4921bd206f65a1cab1bb83da2ec6128b927e2376508c74a7bba353712d;
 0x1b04cf2d7a71282e57b33b3a67235c89acc5a03e6e5b8c2fc784891eaba9e221;
 0x242de34ed5316ba97ae4f46f05aa9e7c2c1c15dad9dbf8695288c13171bea890;
 0x2046c91a59d50c271c09271aa40ded980c91a88ea5f7e3b2b08858464e082c12;
 0x26cd545999428c5142048b641af7077594238778d17196da2e5c8e1b253b36dc;
 0x256b2f4800071aee94ac6b9031974f26fa6dc520938c96952878364f6f9790fd;
 0x164a0f897508f50e81a4a51e1abe56413d3b53306c3761dd408e1743fb060a33;
 0x1f7569343079826f0b1240702ec507915173f38d7a39bc75ad1c86cf79bd4414;
 0x5272bb3e84e9d0cc586a7d6af710026f809ea06526ffe9da350fddccc09d1a3;
 0x22ac9bed266b94c00d2f9d34f71a2d36c0d09bb30d9ef6587be752ed8b7fbc26;
 0x7674836517777ed3779e8a584732a9509e49db9d94a77161b7870cef981c1e7;
 0xffe7a0170bb48fb6c3e0b80e6244e1d6ef99ccf3e8a3061aa3136b1f7956cf1;
 0x1afd9dce91b191147c5f764300d8eed362eee907616d0bd56c931aaa7683194d;
 0x1ae34688936fcc0968249cf2077a1a982df5358dd5abc8deceb6f33b848b455c;
 0x3386d6e82aedb6f4bc05d34e96805cf875bbdcd9f59da3b3b95f7063442b228;
 0x1a1c06ea0926bd024640936f97377319fab6833349ac323240167651f3a01037;
 0xe30a774c353a2cbf244d3d014d1a0e5ff0bac5e242673ae33f1bb2030feff68;
 0x30192336409d16bb77389625d09d75f79f82e3e249b9b80a56d541a463184498;
 0x19c8967febcf45820a2fac7a8f7475b591f3dc87e263392789d247b39eb74b29;
 0x97570b91ed5d59d977e8e71ee895a590b529db6ee364fd82bda34ac18fd21c8;
 0x1a4393d778fea4efd093c5a43b4f0fb318caedd91ed30e2affe80054b6cd8e4d;
 0x31f540e1c1038a98ad3b80d8fc9bdfaea35d1d153da0011063b2472004b67b;
 0x165f001bcb8a3a0f9d4e00eeaed05614063d65735dec8c39737a83da4a293f6b;
 0x22e6b223b3e435309ee74f4920584e681c03c0382ad4d4d45f7f1e04c8f1e29;
 0x153d4c74f674e56647007566cfc575d08220dd89f88e9199174e81006f4bc589;
 0x46d4654e5ea12ef7d79ea7b540efd8cfcb0f8c803be7a9f3133227f8b673919;
 0x872d96c258f6400c031024c81eb9e49f1aefbad34225fa5633347f615910152;
 0x15e8a238d295f566b70246488ae7ffd1465a0efd12d2d688ceb2ad1cce50fb28;
 0xa7c019933d1c0a25cb8de67da2926591274ac799ae7a0800e79dfb1a66b09ac;
 0x1271c70f8805321068c895e1e0370f17bd49d7b75cf8e055b87f7615892c6c3;
 0x11356c90cf6bd40bdd299859f2439cd098f43baf710198aaa457bed29b78dcd3;
 0x1cfed55f4f804d76ddbdc211f248a7a7b9441ff124e31bae6f9f7a734f75abc0;
 0x2f9fc15fa8a7aa7217dfcb63bc31e6e9a2ec67668ef14499eb4a6b932234aa3;
 0x682ca8b867c78c917f04c2a7745a9a79182816677c65a771b019e64eff93abb;
 0x21dca8a6aba3d3f01bc0e27ea518f049bd57897f1354141d461b4a0c8682e484;
 0x227615abf38c854ee4abdef8b53b2687832b44eb05210ca355082ae06d9b5f6c;
 0x2921d807cfeed7a85927966f1dd5bf26835d3877c7227ad8fce96f28d00b66f6;
 0x1c9045d27121eb200e99a9df2b8e956f570e7cb06aaa424872e64da24668fc04;
 0x40850a1c2d1b7b78b59dccb79077605dc647e3971b26679142cfa657b3e77a4;
 0x4800dd5d34860acc745f73e61c474dc48e5ed88cc2a6556fd7d8ba47f7fe19b;
 0xcd605cc107283534180cfecb268068cce0e324f8eed13dc548d238559feb80d;
 0x265a4560a8a1ccecfd48264d9ee16af19c125244c13ee626b23d72bd6c1b69dc;
 0x2d72b58f878e0d96fe819ac630ebae41297a09fbc79fff372928e6bf929a0850;
 0xe30a774c353a2cbf244d3d014d1a0e5ff0bac5e242673ae33f1bb2030feff68;
 0x783e03e1c20687dcfa329bfe762847ef8469b9a16f1aff46e721bcfeb4ed9a2;
 0x7c549879769b6127b1fdd9e119c7f1088459b2444ca62f946f80265c08d96b1;
 0x1025885c29c40db31ca8f1f490caa4bc621924e88725428fbc670555e4222db3;
 0x21f0feca587fe54622a731ec88768d986581c07465c474729691e31a8b4fdb75;
 0x66df9e27127d7003f397e03dad246027125ae6c99200dad3cd5faf2fe43de22;
 0x27f3ab0ce10f55f231d7d249eaf38aa45375dcfae6add9b21783d1ebc38e4913;
 0x1e2dee4d94a3cbe678af8b0a8bf277469150364496efc0ace58540865a6288b6;
 0x9972d0bc51270751cf7fdfc95ab7208812d7e9d93a9b45386e0bbd3fb23c709;
 0x147d3302a23dfa4867fcf2168badaff8e987e90f6c141e92bec278ce816a9566;
 0x2e95c0b710cc179b4e39f3d45c97d0555437195d3e894e5bf238ab9fb9929c54;
 0xedff84d026026b621e6de741849300748078db140c9fe04236c2e05a35d7f0d;
 0x245d05ec0b5dc822bea9b8a2cd6c56da38bfdda0a4fa5744da442ba833098574;
 0x138874360b6e98e6ccd8fef742dca0d8ec44826aacce221b311cf421a6ec0292;
 0x1cc05be64c2f3cd2b68699c52f15d6265d493e7bd5ab4030a53c8be2fed67e89;
 0x2f5edc508ba14e8271fc7fbccb3e7d8750f4322606b2e5dcaac7239ba72143d2;
 0x1557d4eee207353143eed1b01c37806b4f0b6e688069a13b296214439bbe0949;
 0x258650e8ca6e1162e19f92302d2a6e8e40b00bb161c7f2ca5b92364cb553b5fc;
 0x12ec2381a018b71858df6bf6b0c9e02f14d8ca492878055dcfce660c7d915532;
 0x2aecb59a26510953e9d38b5669447df6bf4c2dc1a9bae6f4b84ffdfdff6a2a29;
 0x13201907ff8421dc74e517a6b72e4f997135c8f0e8ea5446907c6fd26f1609cf;
 0x1db130e5583c812ea25e107e27899c895214abb225bb3807ea80232015d21e2;
 0x27db99bc289ac5e1ad7b1192ca0c0f3b1614c77a77781cf00ee2e411835185bd;
 0x21a326712c5b109272d6aaebb73cc74cd389543fd17e6f12cb3a6c201ae735e6;
 0x2716f822617a359b60ba9d853d76a5d051c9bebe9ea9425d51b98475a9485809;
 0xe99f2580adcf372f1c99d009a22816c53cd5272d479fd64016a45e75eeea381;
 0xa3113a6affe5598d9d8ad2ddbf83ff94d56ca7f078a48713d0af15c4529291a;
 0xe30a774c353a2cbf244d3d014d1a0e5ff0bac5e242673ae33f1bb2030feff68;
 0x2cf67d5d1a9383ce14adf8d7b63005e058980ca148deb3bf0f17855cb115097e;
 0x14182d28f17d764f790f9185a15a6a03144c9e41ed22e8a2269619775dd3365b;
 0x2d63510ce0f51ac8f325327191ae2e8dac8775c05f87b87897e73416a53d1007;
 0x11d2023fe50f1147998bdb7d03b70f70f1a583a67646b055be252e3393bb0fde;
 0xd5beabdfc8def1c0fafd2b625bf1f4eacb6d3dd8870d0557af54c9c98b5b799;
 0x2e8f4e6bb6f7a28422636a7d3b0fe12ca20ab14cd0c5c45c4ef13f326ea5fee8;
 0x1ae5ebcaae05bedb59194e96c92c288479dce2ab43fceb24541ca2648245762a;
 0x24cafb4c21af1cd16216dd42b7e5c42457d5fbf4bf87bdb65730418efd682a5e;
 0x2e139e0df93864516aabdb86d6ab65d6598a0017346fd732e7f895aff36e9481;
 0x2ff83bb2884713055564970f1e39cded077a9205cbd74adad70411e2f963159c;
 0x2552f8295742fd94e0f264d182e9e34023f4163fc929c6b143cb35dbc61a32c5;
 0xb05c0f1defa2ff4e6a56a7582a568d650a7a2ae9ccbc478be52bb4fe3452299;
 0x2c0588283e0bb713ea7a22fb189fa359dcab39f137c9d5953ccd0ae136770f8;
 0x18bfcedbba1f9279d2dbd1d0b4b728a4836b9682905e03f6d9ab9992ee702bdb;
 0x4b314d086daebc4f33a7e8fb2ee578c668e91adff3ac3168dd3183965f51ec8;
 0x6cd84135ffdd74d9c315bfe319d01b17060fee963e8373d1458e181027ff005;
 0x29eea9039c59c939cb82a69a7def6a60623b9868e1a7137590b930140bae4ec2;
 0x1972fc96c24121bddcc76c44074dba6ac02ca1a10bbaa7bb49ce6d7161b4ffe4;
 0x1bacfc2d72d57f6bf695f3d82859859b329b87539e0c18313a1d3f27ab9afbe7;
 0x1069e2eda47e9fb6bfddfbb48d740256acd9be07d2ea9883b63e3214d0ded0f8;
 0x1d87dc8c8e73c38d20d2edd3f6b5abd456a881deeda90d0780176cd7770419c5;
 0x1d08c8a0952b5e4fd915b39382a0ee45893e3c207e339e6c78f28f1787bce94b;
 0xfdbab60a929d492017a0691032f8042201a3223c7ad628a6e1b6340d0893c;
 0x13f25826edf3001e3d8ade5dd2965989ae6c2578b7e886116949553b6f0ce244;
 0x44fa02e1da99bc4866c220784a4ba55ae28cfc47c4b9e5ba488f43b6141c7c3;
 0x7492d98f774f6c8f67583aaa485ac632906a19003a7757119536b19ab78b9d8;
 0xe30a774c353a2cbf244d3d014d1a0e5ff0bac5e242673ae33f1bb2030feff68;
 0x1fbb89d438ac14128a40437352ed7182d10f22964833efe6fb46eb21b780ec01;
 0x6ae819a8e0c57d44ee1ab07a49be82ca5544d89ab8518f844385576aec43234;
 0x2b3d3a7605543d350b0838b9b3fa9656cb91a84287d6f06e9338154f316cbadb;
 0x1620323cc24fb81854d716dcd972c108ea5d3b062841752a36c994c594199774;
 0x53924bafabdf89232353e5c853dd8b946f617a28f094f9f92badf1c233c925c;
 0x199241c82a57014e3375029b265ea7683611ead5148a8f83a231065c7887951;
 0x1e8b6db0d447c099ae7433fae22a2e779d110bd3b8feca58aee056f7ec325a4f;
 0xb3908d2ea7af26d42a913972fe10c3565f627cbf3b05af7b03a03b455d2745a;
 0xc337f61785e502287e274c817e5f380e5cd314d1a3ce42887dfe19bd20e8348;
 0x965a7d0f2799aa6f3ecb0ab4fdf5f02e0fd5386bf137cd2bdbc3e6aab74b608;
 0x18d8dc79d76890bb7586c65d83acce6185e11ba38d288f4933f33db74234eaa;
 0x2048602c11e8e771bb35415db4519798c36b593ea0b8fd4560410a7057d5d6a0;
 0x2966833633f29aaaf9d5f8d206fd1353f140d989a7214cd13bfed0657b0b5407;
 0x1c6ba85ab5f85ed4b53dc40cedaba63e5ef8006c724440b9448d64ac2b394b08;
 0x65adc608aa6dc0878f5bfcc2b89b3dbc18c5944c5b868dbd6d263cfd386ccbd;
 0x2f5c69bd32960af29ce7ab14150ba089073d74b14c18b63dce9242df8da666e6;
 0xd4e47c2eefa2d97991d58198e147c5dc3f856665f35905c8dcc0c7981979669;
 0x21dc79896380c9936d5da47117ee730c16563d40826cfed9a1415636bb6d9f6c;
 0x11393d10b1b89df9a2e7c68df33f1ee41656ee8509570cd4aec6d68917732245;
 0x2501a832c4be33ce1a4752aa3c3840b89c7eb9d7a2a267b16f076d9c90a6e98c;
 0x29417a7ecc3faed51f8f4e599e13699d32073c5f3865d8ac92f664016060c84a;
 0x1e6ee4be7b5f89fe5eb7f50ea73935fbeebc6ca8756580099b3c9a41a8a66f3f;
 0x24b1094cffa81631dd9fc78b33cbd8d7a93d0269ac60501af8ff82fa646e30df;
 0x1bad44f174f12802c4ec1dcafb6852b6b99dc3723bef629361b5bea594a7e3f6;
 0x2aed2c26dc890d5283b53ad5f30f9354e22804016335e4190b551be5e28e4e44;
 0x247d59448600ad981156c2e19e2be924d7b83bed1bacf16899dab7d7a8bf7f51;
 0xe30a774c353a2cbf244d3d014d1a0e5ff0bac5e242673ae33f1bb2030feff68;
 0x105097314bce2c2588aa56f191b813fee58479e8b541c13bd6c9bc8e654172ae;
 0x28d5354a0ceb5dbb339ec880b3b6fbc0e7e4f07ac0ecf5348429e1af57069bef;
 0xa31c76780b39b494f7334a7a2ce004b80f56d898ac155716f65172fce3dd454;
 0x1225a8ce4e27af6625ad1a92530a1fdb3206135eb09f679b2b38c13869b9370e;
 0x98a16fe6c6a2a433a045fd0d02346e5c024d7b4bcbe12d2594469a4a7a2925b;
 0x205ad0dfc7a7298bcca92aba3ec23f7dcee21785c96aea116bcf71e07d9ba361;
 0x148f1eadc8be731f95ef81b8e1f3634f44182101b2f13d8fe46bb3aafd2300b9;
 0x4372474a7938acc947df6d261fbba26850a09a16587d069cd877151e287e1d4;
 0x2ca6979a079cb2f455da4e23b90e191cff23e2d76b7d0a6d613e0c1a4507c4a9;
 0x2ca59df55ad4923070a4669629aad754a88b50fbd4643d544045d76148451dc4;
 0x2a7055f1e24448b52bbf572d0efc12754593d59062345f918ba7d90a27130580;
 0xa644e2fe975a3d062ff496a17e7113a395ecf678289de53b2137df5811be1c4;
 0x259bb7d88bf3f1c2f0521ff84c05423a250fc32477823c44d53e11cae6028ae3;
 0x27d551eb8809df2e1c200a661838fd96bea30a7a0b7ffb20795741a46ec359c9;
 0x17e37e4432360ed9a16dcb9cf0584b47ba049cba55b53ad5b5bfdb55cbd36ac3;
 0x263693f36da574e9f6b1af2e2817e803080035a19ac1c2ff754f0f970d20c6f9;
 0x1a893c4de3717842ede135fdb2a63f3c05c834cab22572bec21d57db7c3cb052;
 0x9bca88fc417d85c16bc98e2fca531206336226ba3a02a51a7fbdc2310e26f51;
 0xfe6944c3317d58ffa98fb3a991c22698ff20765d34c2b8b95802b83fbbd9cd0;
 0x1ba3d144274a073e17ed52348cd82eb3e00c743b7d9d3e944a1e3f5a361474f7;
 0x2cc42995586265e9cdfbaa845525177269b37ba7fcd3294074613d2d12af4070;
 0xa83811bff1e7f22000720d598ed2e3508ee14a9e12ff6125dbdb78cf07a2d62;
 0x4242918a5fc9ca3c34867d674dc7d1d1136ffb519de0eace1e6f911ea197350;
 0xedba1a161aae781bab92363fa0d12d8fcfb5e3b818cddef8844f94e9db890;
 0x230942de72fe0db9196d787b929144bf4faceb69b6f12aacb6e0d6b51cc7931a;
 0x1a9561c0d020fb28ea2ebf3851832058ad1cf972e99841f4772a8c578b6ef48f;
 0xe30a774c353a2cbf244d3d014d1a0e5ff0bac5e242673ae33f1bb2030feff68;
 0x22c0fc9c00f53d4247c908976b1ed1e55c4138b96e9c3ac1dc1f4d268e64ef49;
 0x22729d77b7b881af2f484a1a8438f52cb7be3b93c607310c5038a1d07253a184;
 0x14883acec95e824ab505756a5336b2c5e1b984c6a193d4bdbb014c097734b464;
 0x120d96dc5b428589ffb9f37b5001c6f5915b3ce4460b25331c62d59d65adc01c;
 0x130325a89c8e74b5feebd6340dde992f569aaa3f9350e45d0904027087e89b2e;
 0x16e6e793c81a10719f613ab182ad57ebec76df8dbef775cf03e1e316646d05f5;
 0x18bb788f4ff54dc0981e35a7178809d1f2518cbd12e5e78a77c2e366d0543cf7;
 0xcedee51d5b87d9ba52d6f12490b24cee9e61c1889ef46f2f882644046626461;
 0x1bfe0f0059a451175348f8af855e1f384d1299adfd1f8d852df6c325130bfdc6;
 0x1ca82eb1aa4d6081a46094f403954399af76a7d7dad88d5a9ca921a30ae1dc9b;
 0x11e1d384eb2a64472a26e40594253acd255027b2bf1f7a9a518b954d0de04321;
 0xdc70139469e918276bb65ff8334f64ba442cdd64bc1865efe3e788ff0c74341;
 0x1896f5f3c754db9d8812e99665c89c873620d9f0e599c0b2db25f9b186c05bca;
 0x2b1eb292fbf05207b3a916692003abc04683db775eb3e97bdd5f388df5b9e6e9;
 0xe822a8b6bdab9cfadfc98982d3d27df53300922ea795b29e1ed4e61f2ef6b9e;
 0x14447323538128d076a4a7c5e7d487256a671dce167e1a37f69601c64783ee7;
 0x1731ac8243601c9ad1c2d81f6ca118d479b9d71d03ab34c282bf68f3caaca5a5;
 0x1efef24cd417daeb7fbc1789fc2381fc194f515d6bf1b7a61bccd70a0fd13c2a;
 0x26c6de8f5b580b7d222bfee2f19dbe02580da4e383217b4870f1d4c8f7b692cc;
 0xd3823efb4c4808c275f720c340a733ffaab28c36479978b485b346e4ebb1ab4;
 0x24a2b1d438ee871cdf765b899d2f068811a6f46d02422c133ff6695a7f304593;
 0x9fe29e36bc74cf6d477ce054610f63a43855a08c27b86af1ff58e98c9fe686d;
 0x123e4ce6ab585e748a6424819b24aa2fd60e371b9842355df95ef13318346c10;
 0x257d0d633e7b8e40fa3a0c30548ff79d268d90296d8b5d3e9e7ee4f39ec814f0;
 0x21f4b792c1fcaf55e70e1b1804cdfd952a7ea45dcb9982c315024446e36b4b5b;
 0x18cec0d331cbb93e5cb4c1d4f1080de356f465e2ffb2fa712feb858bace4f5c8;
 0xe30a774c353a2cbf244d3d014d1a0e5ff0bac5e242673ae33f1bb2030feff68;
 0x1e5f08ebfc9f997ece7730536dd4cff8b519ebf519ad1342de3c2e26473a0b5b;
 0x2d77d34a218a752dfa4b941b63d7b02ab6078037ce22ec0608d3b7b402e4efbb;
 0x19004b8f6ea39ba279e5ecf8210460c112c1a563cf106736d9a0a46b7b842695;
 0x11fb4988936908db3d50905adda5065ee297a7e7187c36212ffdf5f81220f256;
 0x1081ebe3ee722e4f687bedf259ccdcb6fa46420c44d0ea88389917cf6717c04a;
 0x185aa8d933cc96791097565775894b15e2858ec2980311e55d9827471bbba810;
 0x1ab306868bac9a5ba65245b93f2c9b936de449a9091b45f3473bf97dd425aedb;
 0x2f1fc8f6cd473593cf38527156e482897df8441db84c875587c24966f6523973;
 0x17770ba5bd03c9275e2fe0ebf158ca85503ce65969cc9f86e3fb3be24e1fbada;
 0x1d0d275c4971978edab4b7a7cdd85ad72c204a13415f140d9d28b8af514bd692;
 0x1ca07f602b20372b8d50c9863fb5ec9fa033c63eeb293015a4bc91038be3f7fc;
 0x4782f31c8fcdd4898af76effd524fd0739c8ac290480fd0f32ddfa082dbbec6;
 0x68de12e587aa2c26e2e509faea0fadf79602aaea46e45b608be969ebf46ede6;
 0xf47f3f88ec297c36cc16581fe223a95388c7c3baffe6cabc7f4f669bf746e96;
 0x17bc99581c7bd39bae9f593ae1d72e99d7628db94135a65c2c510727f6148029;
 0x1d85dc0db735b4877d9f1639020da87afa6580963e0c2dc95c30a77ec57ee2b1;
 0x27c21a6c642486aa075c9a7757b96e68419cab8ed819e40d179992652eaaf1d8;
 0x1c15013e0719650306487b07e421e718ba9c35256964071760ef99c6b8aaad28;
 0x26bb2e4e2bf9a53e1147608d79a93bf730b09f4e651d6b08db6a509ce44ebbfa;
 0x2cc7e0fa1e964c48a3e0fc90f35e4e74cc01b2f74cc4de884a2dfde37331faa2;
 0xb9c87dd914a25c9d75070b7997507399970d9add413b9a8e4397f46ab8b97df;
 0x7f9ce6c590326b73f00c860875f2c7d4e6bb52725d8e4d6958caac8f46a4ae3;
 0xc289d670c7e2e743fbd60fd2a2a5e3ca077b4bf44df78babdffa232626d3900;
 0x190ce149a93a528cb01fb27da9eaa39de2bbaea50552a99286d4fa80b8e7b22d;
 0x20633ae2a05b6d69d765ab6fc2e335ae0c5dbcac130b204c01f88f9cd091b12;
 0x2543a932d6cd8dbd7533f3bf5a905c366dd1ac737290f6671e7ad6adb557778d;
 0xe30a774c353a2cbf244d3d014d1a0e5ff0bac5e242673ae33f1bb2030feff68;
 0x22187dc1425cbf505392f976a839df01c17067dd9a7e67d09e9078f1ec43abac;
 0x274579b98b4831b89a42351a2bef67f33a0741af871e3b1911edce28d6b1320e;
 0x2c52925562b2b08d1d1b2696af293157692f2a0b7f34052cbe8e26e80071d256;
 0x2e2f8231db4f3786fef48e7b65f9c890f1aa834729f769feba60a3554b9284a8;
 0x521922aba91806b1e4e13a4bdf92fde9737099751626a1c4d6011cb0d28d488;
 0x2ee11408d02e460309bfd46344e5557bb6711504030c84d81d127a17aa72c787;
 0x175981ace0eca15153600235260b821b4b05013f3e0e3cad3323bd32588b398;
 0x1d17093c739566880702816f776d54eee78164e5716335708fd67bae6407b863;
 0x7a6e2b3a2495845ca96a757a279b823bec23e6e2c2ee41f3ed6705a9df22548;
 0x1dee69a0aaac76360a66e057a8eef5bf7d845cb09a3eb27bfd152239bc8a6818;
 0x15df16ae54e8e3e211eb27f95f7da0bdf38da9530007085afc20553468eee2e0;
 0x2d85cd78c80244f0900115c6f5f5cc4cfbf8295c2a0b685f987144b9151618d0;
 0x1e894f052db0012cb83762d3fb2a824db10684db641c6e3eaa9fe45c9561541f;
 0x19bde06d6e7eb6c84a02e9a0f224c77c0b2cafce0fba9fbfc063a46b69e81406;
 0x2897de5d9c274ad4302ae652103f0d8d3a041ae93c0d461ac15d30d36a60edbf;
 0xfb0ac77f9a6cfe96bbaa646fe280d4b5449eda51b5cc1ac36325c3af0f4f830;
 0x2c3f06f6f736cbfcb1b6927b53543c31a95c648d4828ec34401c2474c932a48a;
 0x23e564383465f1d1f7cb62a80d4995fa2145cf6b06fa2f1e0541effffc19f5f4;
 0x18c139146446dbc956ff95270022370c93ee09947cabee3b0377d1524ec20807;
 0x2bb3b1a1771678092e80390f181fdc6df345e7641c8b7e4932708ac1f332f0b9;
 0x8df0d04a0d8d1b2b80f219c33a9266675bfc080532e9e66430bb67e05360f7d;
 0xd39efb103e032f986c875db6b9f6a6748cfaeb333c93ad7cb45e755eafe48c8;
 0x5f47c6fdbbd7b4e59cc7877eeaf63cb8c16c4dd77f214428dc94b9b2c0214e0;
 0xee1051b33292d8a7dc350916b62440745f2f47981721b80496d2aae0c9ff288;
 0x2bbf58da087230463a98b210824453823aed830f60432ce3156c583e06edf08;
 0x1674e5bc670e98029ca22d400ffc19a4200352fb152c784da88be0b67ffa14a2;
 0xe30a774c353a2cbf244d3d014d1a0e5ff0bac5e242673ae33f1bb2030feff68;
 0x8a1e55de3e637ffa6b051ee33ab203483029584daf0c57c454bba30cf6363a8;
 0xe5b4497c397b27ca78254adc0c66a45514929a3dc0cfe2ed3c447a5d3926088;
 0xbccfad82d3fbec329e684d19569993c855483814fb2547e7b96cf79ba875616;
 0x1908c79adfdad4c4aeda2295a9db560a33e91b01050448491632705b189ae1d6;
 0x1299565dbf2547b30db50f5dd49ca835c3213eeba0130e835aea4add65037abe;
 0x2b4906e765f1e80f6e84d5852f34da89ec6d996c4a40a066c68b6a98100a2f9c;
 0x124a247b0b866c09ee5d3783bc715de3244599016f0fbe385738f95cb5dc0a28;
 0x77d1bac0f5b226607b2765d8d48118b1c55380c60aaac2ec0940afd0c05b24b;
 0x2ac41a842793f693dcffbebc5c08ed6b4aecee7db956ec59ddc230a7b3579c1d;
 0x137d327d41a9c6e42e20bb705fc3da5a282c911c8e7a79cab4e3665fbc3b529b;
 0x2dbd1fe87204abe2f9c27a8343c7257a93e781451d8e159feb4ef12f38b28e58;
 0x20d9cb838e454e9841ddd4792e4ea7b8f51cd7d7f271d6e32f3fa963a6d2cdf6;
 0xb34270663039e315f63a5c992e31d5d09451221504f85b37e1480067fe92174;
 0x12826e5b9be1c9b85f7c98aaca9ce28a870687d3628d60def0ab3072b57b09b8;
 0x22fea1297a4a5f08904d555c2e15d016102a4ed29c32b4bb10809ef14af42c77;
 0x24cc6751894087b831598b5bc7f9db3cbb48ce294d9208e1aa436cb5fa2e80e1;
 0x2cc3d0503a0e1da952b081ba5dc5b117e646bed572a645266c6ec3ce0a1474b9;
 0x11eedbe5a5969f33446503494b469a2b83f88d3aa477e5d6d7963a8333a61315;
 0x189ae9e9b162ab1a19d599cedcef428bd1325c78740aaad6715b710bfac4c1e6;
 0x1aad11449d6e2c6e1adcf9e89114c336c0145528f356ac049f52fd8cb084370a;
 0xd7e1eae2cfec406402d34c259e5966f6e2eb261d4f08e29088325a6bb669a63;
 0x796a23ad6ed2ac995104a0d3e6c75e977ce29aba1d25e62a9a8a20364ea1be0;
 0x299b8e8621d7d8c8d3d6286cb126b34ee53b2dc9a3697b8380c6e47f5711345c;
 0x20f11ee81d2ac9a9ed1cac61d9cfdf10bf1b49cdfbb6d232872a1df1427c1839;
 0xa403e979943b8d2f947f6eda6d41170881341bb5e4fbbb3b4fe3dd7dccdd777;
 0x4646253380f4bf642972ae81977779454aa0833fda36b1822cb9c09719e3dd1].
(* poseidon_bn128_constants.rs:7420-8439 *)
Definition bn_c15 : list Z := [0x148d9e4542066b125da6d69ff3fb676ebd27e6a38a1ff4281bd639c97af6ffd5;
 0xb60a28805324295fcaf51bb88d9692372cbf4eef1cba8b85cbc059346691a88;
 0x2d38f812ad1d7ac79c32fdd57a56edb861885f20fa4bc6d0d942c2f41e8e4a7d;
 0x25738acd1163580033367fd8f1ee199d7eb3c37891e06bc20e6b476a0357588b;
 0x247f6967fca42689ae8e20b5a7a198d63086549b78c1620a51f5d36824ccf43d;
 0x2e22813077a668b2b75249b8d515a3dcd93502006694245bb087ff0732708b93;
 0x1523ea89be61be47e1c36b0e024068c28c48da74bf7069ab2d77389c83d474f4;
 0x146695ce138230e087b53ef1bf81601f2591dd344a7cb509f138939369e0d1c3;
 0x12d05d9571fa4b4171886d9c2cd44c7d7fc5a4125195e7d28c3c47cb5cb5b7c5;
 0x242721147084d4613543788977111f3fde6c89326a556e35bccd2a2e73cac68b;
 0xfd921ba8395a5dde833e6dba4173385007b38d1af5e3841a345c9a480c9d292;
 0xf0bbdc7a39e5146929f2e1ca9fb4a63550cea8f12109c1d82e601975d581f5d;
 0xd65008588b2ee1a4dee0313b6d4396952d901385f2e1afe6a0a0def765dc2;
 0xaea567be31e1c42ce33f589d903363a482f21c1c3d8fe50fa6df018a2dc7c25;
 0x2fa334757b03dec6be1df758ebe0353317b35316ecfc72934d069f182346bbd;
 0x17322782b3733e379c8909ae7da94655c46dd2b6b061b9253d787a1eaa9b8f;
 0x156816f48e3ef988ffe04cc77ac4c89af8fef8482604e7f93b75c1fb1164d60e;
 0x2c8ff977a27352b5d7d9ec103fc8f0c727b84a778f41adf777c38e01800afdac;
 0x2cc225cb5ee4ba2b7053f98af7b3b488569016ecf6f4943d64ba843092c59229;
 0xd34d7a8b8f49abfa48c73b10f293aca19e09743a8345e9e1af9f2d63fead969;
 0x2a0355ab04bedea61feae083561067edf1476b20725cf5e032db806d33edc204;
 0x2dcaeb4653a0ccad1c0872f76b103bf4fa38f6d63119e1437c798203d29768c5;
 0x22d2e63907fc0b6564850122c8e924a972de827d7491e92dd84397b2ebca7770;
 0x1593a5b503df48305ffc360c4f49ceb02536c73d76b4f2f774f9da3d5b8dce03;
 0x22d45f1203cc11e52b9155749a7c0a0a821da4b063cddc820580280e21026ebe;
 0x28f01a0adb5f8f85236e1a129ffafb2cdf86aeb4056eb5ff5a06951d64c3d4b2;
 0x1ba602ae9d3c4cbfadd0ae2ccf8fcce759f83cff29bf12b53d6050a7585e6aaa;
 0x27bca061d815778ed8719c5f4f54063213c5005a46ed7aed0c979d2ad1557c33;
 0x25593be458b75a5369a4bd6a86b70ae79876e95ab93705d244101d5df3e45700;
 0x15608030e8bb2a8cec5f6e69489064cd21f9b3617034c9751c53056cc113c04b;
 0x14ab657ef52773269b4002b7a2cc6d01ea66ec8eb51a97e0bde8ef9f593eaac1;
 0x1af18589ae90058d0db1569f4d4ecf74154386cbb6fe90564311b4340b1a11da;
 0x1f60106f88fadb4d8f97ce9ecc24d0910a4575c5a710002504b48faa28fb91cc;
 0x66027b365d51255f99caab82d5009ae066db65ba103962f7c65f2f2daea562;
 0x181301fa387e521e8951a3bf77c5942c5bbc4a8fcc6c395c34b4f491a9068ab3;
 0x2dc04cb3a80a5239a13299eea70ba026593f40ccf49cb8ebd73da29a76413e3b;
 0x2ba55e1d5cc09043027597e4fc546a18922baf85d6ab0ec6eff1cf13922b5592;
 0x2d5b0f0163ae47693ce731568cd67c54b82f249f2a429e585f65400f0c7adde4;
 0x374ac4769fa6fd0b8166fd62a112357902308a127645453d72f5249ca5c9368;
 0xe767d617dbbe410968708f585dba04e995a8347ef23ea101fea088508403aac;
 0x1fb38ef3ce50f158451e37bf5480ba70a91f8fcee93274ab021dfed70f2e2822;
 0x14e239aa73b943e39c9b48abb205ccaa4ff59d68f9d325b717791666177db65b;
 0x2712d94019540f5f0d61c11c2c16d3dfab0257385896be59c31ff97a37c6555b;
 0xe6f524392452ebad40973a980e08f69abdeb214e5eb7830f7284c1d13e36036;
 0x29470b692ab4a550523b448684e197e6be9bc885b9d3110c281575c1bbc67ca2;
 0x23910827d0d4a41ee8b13a711ae19b5ac604401a221417172c3018a49de959fb;
 0xbf5862f89a9d3687f2fb246980570d96ed258e8414aca7e0c9df7cee833dd85;
 0x270d4863fd01f27b0558468bca95648bc8db3ca55aaa5feb27c286aeadb27b;
 0x2dfabec7671e1e932b07f164ab49e69e63f173513f2d4a015ce8de3e168c1bc8;
 0xbab26acbc48f8648d736366adaa29fde492480002f5020c6220fb187dae8891;
 0x2bcdf080431544a4ed25c9db868837a2d17876fd7b3001bfcc22bcb686483bb1;
 0x2064a7ebb7e6ade9cbcc596200eec97ca5e2f9beb2a26acc673b93a218f16ac7;
 0x451e58617ec882799b2b33aad34bcaab6a871538c20782009b5da2a377b91aa;
 0x2582f9576b56b22907c4bbfa7e4155b4e28ae03876964cd40adb0e255b6c1a14;
 0x1af73515b661bd03915b5c3b5d8cec060b490d742c4f48d43ed907ac65ea6c89;
 0xeeb619b01645cb31f1f5145d2d1aca045e69f9a89742cf85faa65a8f30781c4;
 0x1b4ee6b9a81fbf0c201d0898a6948a0995ebcd080e0cea83ada3d8ed6182ab17;
 0x5abe05399288af84efeb848ec61d53dd0f07439982e04e3a5a304166ac1730d;
 0x2cc02c9ccd63f23dce9ec2b3587322da4a4cebf9cc9246c700db6612aa769674;
 0xda64f9355bcc3ccf87a9696b344e5683cad3f876a5b9e5f715a0d70a973001f;
 0x2d0b3f3a901f88ad88c2012c2b32f4eb9f02bbdaedf4cd1e37b84f4016feab7b;
 0x1d566523ed67e71b5ff0cc5cd17a325d3092bd66a52773a537896e3c6df86c76;
 0x37d35446e19eed662a2b628126b2850f7daa087974e21fad3d339d7e2dcc33e;
 0x22b59547c33c37e6c300a3556f87dbba667bda84e1b8ef87430a522a576de9f0;
 0x196f8d6f851f5bbcea6a1614656b38a30e5bcbff261cef19f6e34066acbdb74b;
 0x576d6d6dc692d9ed7232005e63f954d2da11c77e6e919b2b9dcebaeda11b507;
 0x9dcfd5fff0be2df5a5265856c22ac231cedd81a1312304f5896f0909cc3e6a5;
 0x26f792286cdde888e454c1ddf03592d6d62f4be4843823526509829fcb496163;
 0x299921dbb6a9201f8aca7e69d8190238d5e4a82dda743aed85ca235cab80c163;
 0x2863a223856bdd42e35069d206a5088d217b5ffba6fba0939ca22858cd770dea;
 0xffa5609d1b9aa848721d2e1e2ad6da05d43a241e8e0a7f59508ffa9b1ede432;
 0x11d925274d8fae7d518dfecea58a9a57d88642062969e67e457e962e3ed4a144;
 0x21c219204226bc43f0db2448349213a9e563e94d3fff28b2e692688d0f5b2b12;
 0x2c04ae9f250ba0194bf59eca9404e3af6dcd64dd38e370a038f3fd1e397f5104;
 0x223cca831dc760db7b954d41810614ba6e2c62be31e94884d4c7e5ffa67da5c6;
 0x244b3894104e51a151a671ca11fcb342d1ac225f43abee839469743457133d81;
 0x24f71d5a0ac04a387b758c69782449df7b9ccedb6163a7eedb21ef401452f450;
 0x2efb360d9ca0e15f52aa4033f4c423e0fa5c175cdd05e4aebcc278a7b8296b97;
 0x29ffd7ef3d018c95e8039c2e990e4cfe66ff093810ad4508c30e28e8bb970620;
 0x267ff75a53212383ecccac4e8a3bf2fc9e982baf37ec44478601cfaa6f417233;
 0x2fbfc4b2ce6c2b08cbb3e3749fb22ff3d68d3bb7d335ce0e42ec6dc27090c385;
 0x262f93de20005c4de2f4a5d8d055c8d5f568991b0a862047e5ad94c8868ba3ca;
 0xf080be27a791fcd1755754f931d9b87f5ad8c1963a02aa7cafdd1e8d31b94e3;
 0x21a735213a8c784976e65ca3bec4acc4224527493cd1626d2346133ab8875ff0;
 0x160a92fb6a607d5ee7949fcd5537c8431c449d79aa51bb955845d2cbe684bbfc;
 0x79159f6364543eb643f0424461f00135739813840ac74de81df7c9e10c8f72;
 0x2286247c58eaa4509baaf85b947e699501d3b5f901acc8475a7d9d7941606cd5;
 0x1110425198ba06c42efbdb6e95840d01c00b5d08850f0cd46435cdba1bdccea6;
 0xec5a15571950cec3c3193aca015791604b7dae185d7b9d8992e020185ffd909;
 0x220f98335597493c2e7f4fe3bdc0cd229d0c81b2d0b6f9e565ccf65eba2877e3;
 0x1c2fa2d176f4d7070fe45cfe6a8d4bbd0ce685aa196e4ba2372a5195e7ab644a;
 0x298c1fe3f63531aa98b6aad02e438a8f278bcad4ed97f3c82a091faea910e50b;
 0x2e814b2f088d90012bee74ceef10c7013033af128356dda488e3feab3bf25253;
 0x212609944ec047925f31c13d7ca9fd43a4e54a33fb09a6ec9463cb63d2570e69;
 0x157bbb9d0546f86e4a8b5e450036ab0a84d6109d5506c85f239267f4ba584b56;
 0x138efcdb344b5b40faa9c0a415664bffd77240b5a9cba56b499da2e3cea6b3dc;
 0xca50e08d27bea508f20273021f6e839cf124a54361def3c9b2a64595e58fe4f;
 0xd34d2d5975a2da9f0dd72e846d797ab312022399e1fe70980f983f1587ef7c4;
 0xdd1be4f3fb034d4669a81922fa014c3c1c5c575f39bd809877db2b9fff9744;
 0x25540fcc162307e3906abae7ba258e4fa84ff4dd4ff19742a0969d08018b21bf;
 0x24f57936979ae2a3b9752d37c017574493524a254a5bbc10213b7fa6b15ad35b;
 0x2d9bd62647a45334db73631da9d97a27e8c627e911b83f1962dc3417dc6ce29;
 0x1499c2994ad838770ee3a9af64362a10de6c4c5f32d5ab5bbae55ca0b29fbfba;
 0x15a6459a08eed36bd3e23157dd59512bbc84847e37e8a4e3f7d7fdbc7be20970;
 0x148d65a6a75fbefb33965be2df0989fe031f47478922d2546f1ee126de7f35fc;
 0x16d2f4865c76d38379fb5ad2efb21e777e01744b4e209c095d332e41edb45748;
 0xc86c69e94a003cc454e2990a7ad8167c3bbd4732e646f9f91e961114bc65c37;
 0xb12227a310f8622c9acfe2bb3228aa05cee6105c4268c266dd4176ce7f8e21;
 0x2daf91d225f915884e6cfdab42acb62d276341987bc3a2541819ec7774d90e8d;
 0xbc4e8d555614bac1b8cc99bae7f008cb7c82b5cd1a3c481a553caf8ac373f6e;
 0x2375f37d0030b894a1a8298dd2dd59e2b7e73667f31b156e86d9b38617500fad;
 0x1e8e3c2bd0d4852e261a3c0fa93d83fb9c21d44b49578330dcb9718cbd54b285;
 0x1e80ecca29b345ed88be8e53ca042d6c62afd2a4624cbacb3bd07c85839332b4;
 0x2e1f5ee70338c50c456f43077216125fef314c6653c9ba72c75da5b53cfeda99;
 0xe9ba31ae136fb0199f9d9e0d8580f5560449f2a8b6a9d0f223ec52c4120431e;
 0x24de52f156b2208d81bf109c790f409baa941ab7978af86fbc0f891a5e904f75;
 0x5bdc7205a26bf12700656425ebac48d1150e02fe9b4acb07a41609d7168f04d;
 0x27f8106542d99a1f903582ad757076e18afce563367b63d5d0973d80993a3d8;
 0x7caf2bc3785db7ad681bb6c05ddf24525c19d1519a981b44045a5f78cba52b6;
 0x230b844661066c234483c7fdf632449922453ffb8ef379757509addd81cd773;
 0x1c513a7ff8bdf940ef0d01e76fd4ec19086170e88c64294f737ef20b661982ac;
 0xe0e97979ae864b55f27371e6c6e619ab7b887ce3d861fedd84ae111bea40e0c;
 0x62d46adc59134784cdaf0c4dfb6c9d7358f315f0948765c8fcbc97ec3f38eb2;
 0x2642cee234081127b28b4edb038497a79a2a313a1b749fd2eb67e37794283645;
 0x2400b3982c92f7fc2181889a7087c0dc946db2b2e8d86d3450bc254f6518db37;
 0x24da88b4f2c2dc7055f4a55f78322392d808c076f2de6cb6a03881f2354e9106;
 0x1a3951cd6925316481484ac39b31b83627a5484c259c818ee23a2700c6ceac9f;
 0x2ceca27fb996cdba6d6ee1e105fa5df8ba6b67b865931c017515fb42908de010;
 0x16081d04bd65bc19e41adef6fd8da7814d2bb0cfdfb2ecce5df82a8bea879e6e;
 0x4eed4b89c0ede1bd58851a931e4de791e4c69cf2b1116f8a36b2bc559000e46;
 0x1d60021b4137b2077b31173787004201f20b0701411c48ab9e14418fe26ef4bb;
 0x1636c29d85687fec3aa4125bb66e5d5f1556557a4860c1df85127790f09a61a1;
 0x25c716e5ea5ce2c6a2b671a863d5acb3b2dd4963879f4c163da6a06fb265cc42;
 0x1dece00284bc698ea2af97de3d426cf90110bb49be71a393c1ce70ea971db460;
 0x292a18569aed3c28685001d40cb42dd8153fa99001cbd52729ca6f8e2c466eee;
 0x26edaa0ab7f7eeac8776bff120b4483ce9a6bce85d099931ec9322ba1fbf3881;
 0x5d23fd0743e0e37089588392c6df0b04d5aef2e5268ab19c2e9e9b3a3af4921;
 0x300bbec302c9b8b7e4baa06990571fef5dad26af618d0779b69977a244c589f5;
 0x269f2d9ce098eee89e694d53d3b2d9861490cf184ea09baf640f00a39ac72a3d;
 0x1122a37fa0c37863431182bb8277bd0e849b2178a816d31c7604fc5219d1aa62;
 0x14e2dbbeb30a3a577a0b2299ce9af0539d08eae0748a721880aacaafe1864538;
 0x2f926c6773a8c411b87dc5198c309903d9f492af6f0a43a5af2028e549f6c801;
 0x1169f110cff49700bb5fee9e524a49e35889c4689e384b927984e9957c587fe3;
 0x3fec863f40327b066e68054c87d20cefa1eb13140520d43a679b9e4a147a61;
 0x2e87640ceb4012a9ada31482c79a08f64bab2e2c010cb036bbac1e4a87c801bd;
 0x3e07a8e8e86a863b1471947bd2e9629149b55502a6acdabf609edafa0bc9d98;
 0x23397da20fe1dd05ff21ca3d213fc0ce7ce46c469537c1a2aaf52294d2fd6dae;
 0x179733a75ce11afe8a4842f8509e49301f7428d63ca83973b8d8156fd82ab69a;
 0x10c1e8a0ee811326b883ca8e10f3adb124428ffcc5c7dc79e83c7907b2a1eae9;
 0x24df93681b43879a4bb61b5c6280f4d5e1360287945b978e59b183f0233387ab;
 0x22140f342fecef8e27e3458443baa7dfcba7ac35cbd4a1a09ad87c7f63d7bb5c;
 0x8baf85894900ec08322259d5175b370fd4ad33d5f599d609c95e2d15c26fbde;
 0x24de9488081b84914effbe7d56004598675363e34b41fe0e9b78107930312e17;
 0x1f25291093856f64a271dbd8614931b97c31f8ec8da7121b0bb82caa71f453c7;
 0x11eabe4c7efe3aec592a5cec6b3f6dd1095f9d384ea0ce040262eac0f053c919;
 0xb77db0420ec1e32b9ba0e9904a28921f236ded48f3f49aa2d761a631c25038b;
 0x1689e35a0fde7b1d3a6e6d149380ffc6b7d9772807a553ab7c5073eb2e3ede1a;
 0x162236b343c2c2f7f48b36f3e7a7ec97c07cccf22e3254dccc4b3a30f33c69b3;
 0x248c951c9505d2cf2136f6b24c2b749c7751a01ab1cd83934be12fcbb8d05c86;
 0x9487042f01494c2af046b94105b70b1b8e5ed1ac5f158408309a66a77a6abab;
 0xa9a97076c5d53411c3e8fff6bb537029080b671324819fb8af33d96d432ace7;
 0xc43d5fc0020292fd2ecd06842cfa8373eb9bef8a9d984348b43fa9614b32e23;
 0x146d10ae53aaaf595cb8e8eb29ade3e56c92da9b55a3bc24becf2a2f5fab0393;
 0x1bacba42d80c66b3b062cb5dda6a6230492d8685862447c638cc9b4ec374337c;
 0x16ec168db0372a9144f511c5e860b07113a671b323952a86e8fd40722c7fc879;
 0x113e5457aaddfe1a393d7625ad05bec40e9d44a7e185ea3af2b58ae695ab77b;
 0x18ba814a2a7fdd1206db6a30f7b98f3c45cab593362befdcb0d2a896ac78a7f7;
 0x106843bbc36e4064856eb6688d8f3a90a43ffa7f73bfe63072169bf520248328;
 0xce790f54ac2d34a26ca17cdd642a31b1d4005c09752c6bc5b433064cee6322;
 0x2b4e47ca6f897e337d6d52c1ff33a52487c689bab5fd35620d83c567b57a600a;
 0x27219b83ad2459b2df9f73df5cd1d2f8be66512d95c4f3d81ba876740519db2d;
 0x22cc096806612553e5047eb6e0ec8d01759b9df23c96f53b6fbcaa8a3616ba8f;
 0x273e0a2a56e4243f2133bd90e54692647184a8805fdd2ceb541a220253a78b2f;
 0xd449aeb41e8cc9b2f32856f89dbf1409d5605fc557c43c7cf573571d5aeea14;
 0x1b07cfc60e61c162dc9f12de253b7f952a9246bd2c7c445ca35b8572e5d719a2;
 0xe4eeb512c3cac847535897aed4fb9ed34bffd87c012a117f2a3daa810dfb1e6;
 0x27021e720da0286b61c23b748cc7c358fb6882d8100787fbce685f06e11046cc;
 0x2eac1fa2d1212624bc5e0090e25ac0e0160f2d7390c790a2de7740775830e542;
 0xcc0645876817f8152ccd9010a6f262a516af0ca289330a340db6474ae66d261;
 0x2ccf92d23a6abeee6e7924bf0d4a9e7040b715e662179a182fd11bb26fff58c4;
 0x1b769ddc3111a9d38df31f4809f314d749b8be9fa642d2aaa36961dcde0be23c;
 0x2dc09a5638b6194c6d6cb79c56ef205b0be1e7c83fcaef98b1cd1365295c7d2d;
 0x7efca9ad6268754a03efb676e593a8c75a3ab84ad9046850654a5488312fd4e;
 0x1bb73b4e345b0741548da2aa698783a8c87e923ab1b1008e72d737fbe7f6d9f2;
 0x635173b7551fd4fe8306abd764a169bcce6f3719dd606cd0bc1f2b117fc36fe;
 0x189dd3b20d3f8f53f0f5a2ad97f300f99ebb84090a438f7738f2a126ea8a450a;
 0x265e8dd1fa619461952ccd1d3a96f2aa94906d9df07365c28dd3e93a244f6eea;
 0x143a058fe3987aaf1ca1bf2c376b4979310ef54c29a3e668c124e5af437902c2;
 0x186ec8f1c3ba70ad834c11cea7962750d76c7be8691e679bd195a65dfe698ec0;
 0x2818eb031998c554c9570842180458d149316f14e29fe162600507b1e50952af;
 0x8cf9b17dd2cabc22de68072b0f3bbde4beac5cb58b575219c70f93fe1ec5de5;
 0xa298a9f044a1590bfb4a6835027c9481a406c765ed5c841878a5c14b1c4f4ed;
 0x2f4050e4b3b15017c6c19d417790e22fa6d29269d33b54d801c4af98cf662ce9;
 0x1f1e5035f72cba3a0226a0447fcd28c6bb211da5fde9229458c8f7d3974a06a9;
 0x25763fbc942135da85faf354f47b3ae9fc27606ad701bfe7de3ee704d8160f9d;
 0xeb6142bda2a5f26b49f6dedabdcb7a97f20931fc14256aa85e6a3b0599c8383;
 0x1f8e3d89b5c97325a7063c703014144af195ec37cb8b09d544786eb6721e8ef4;
 0x1a027583e2da7adffb3534095700dc6f7d6ff2a7a19b06d7d69d7eb63da4158c;
 0x2823d3822190171f5924b4ffe5383050cb301fbacd745c2e074f89152a53470c;
 0x17fce7a205f42f17c80a146aa3528e74a3cfc444a1289cf535407fef6cfa1e8d;
 0x211b7a11f1d36c9c10a9b3e78ee5329ae87e7effbcce5968260b64ca4dcd06ed;
 0x1861368bb98ea3229075f4ac8ceac511120ec3fce84eae632b03138a44b4bd5f;
 0x111b4df9aad81b42dad504cf07cd2956cc4848e7ede8ce10075538f78cb7f758;
 0x12df6e0847db8d01b389639603c878d91a19f446117f9a4aefca9038cc9d147d;
 0x2d5e474114c7c6020bd7adb6e15337c4e72f6ef15324106e7585ca3f8c116c4f;
 0x226e655808a4062f8bb47c131ce125bacfe68e7840f4ba6476841041c2808981;
 0x1f01a9d98aad3d9a65a5373ed6d2b672030dc1ca9b46149bbf9f084a7d24f4e4;
 0x2f3578cba83aac8a83f34aaf5c651b0571199e3a4de39ec0579e5ee33993fe03;
 0x18391d423c454019402cf0ec7b36cc133247eb98b9bb439c9c189beaebfdd5ac;
 0x26fcf6ca811edf267bd800e0b00f6b49e60e5a13ca944810a36632595d788181;
 0x140f9b585984d931fe856bdf451805fca64adfe34d55ba4f4140480bd7a97acf;
 0x11e878e17f1f867ade93e914e58024464385abf6403fd4a622e41fb1dc22e3dc;
 0x1f997c6de664e9ceb042c55bd22c9232b858e40ff4efeb4082c76fbd62ddd8e2;
 0x2773284b6eb1c47f14de71f232989ca9bd6a70aae1867ee095299f6419cee52a;
 0x1066b87300af439cab83660521ee9d03b06a17c9a00b5b7a8d56bfc401fa5bdd;
 0x2f1309644679307e98d620766a2861cee589e6d55dd970c8c43de7ad84d7d110;
 0x2f1043b7f9e4b6ec39aa0764007e50320617d97a87be9dfb8f00b4cc27c5baeb;
 0x1b3ac550bfdc6fcf4ef9839b66b3223badb9ecc76ae39fe95c9a47c2a1102cab;
 0x70be30e43784dcf7d99e4334102a69c40c7981eeed360d5b9968e7cf19cfeb1;
 0xe5529c5fd64e3920f611507fae99f8c877e9257fc367bf54dd073f091a3c651;
 0x11d88f7b5649a4b0e1f788c89ef190ed917dbe39ca64cc58cde8633aa479b95e;
 0x2f6cbff18a86d8b40f8973b1ce30bddacd2f248a1f47f1f66d3201fd46d93d17;
 0x176823962788cb748e12ed59426bad8ee881381024993d5703c2c1079c0b7856;
 0x77c3ac1150cda4394aae4e3951f8d0aebdb6fe9e8b336d899ed763745875ad7;
 0x2355c7225b6025168045ab1f9cf7d6754e83365563e45a211aa997d1b85e8f33;
 0x186f0b6b6d6040a7e140bf72b74a71b23c6ddc1e8496e2f733757ae000e90027;
 0x14740840516b80d234f76a02dc3127f9a5ffab1b3f2346aa9c9b910058435ed2;
 0x2203433be06680bf2ef05084f45cafb6d8e94158c6598ab1634f3ba66dd16e4a;
 0x217d3e984355aa1f6df652f101bbdc281c69b7c75164a13fd29776b80b2a9314;
 0x1777f06ba3ebc47efa43959fa089bbe8bace64f9a4406937600c273dbe21e4d1;
 0x1fd8a54df4e6ed46ab5d2997b9fab040e8b4870f5754364850c508a9e573e767;
 0x11d54b8c949efcb99816328db7aeee0a412c7d074a986a0603eaaf5acfe32a1d;
 0x2cc41e52d8f986ee77c59b1de2690ae4e478eff25d4f103b15cc05ca7ab7446d;
 0x47c5febf774c62215aa7e6cc3439898f576041f19ab3c8500b07d5c19a76fa2;
 0x2e9870ed58dfa57d100819116368bbfba81c69a4903a85179cf7a4c2a8f31445;
 0x1fadd3bd3a5c6158a4ff3f0aea374f9635f5211730c79b39d039f9ce17ac8945;
 0x2a5c810d6c43ab2d29ff1c5aa46e4d982c1b6527b6a2e83ec55cd0cc4d45d1c8;
 0x11fafe98343013c2fd3b4364e1e5922db5be5c0f7afdd7b8645d07b4c91d410d;
 0x1d1a82a8b25d503eb4ae65d6bf5113049342c0c10e2f3cb8da9536c95b1211cb;
 0x12ff18aee2ba37f448e89dcb5071355637d5d15545cf9cf8e60baaf2cb832793;
 0x11737e654c3374ae5f4eb5c74f203d1da2aa812bb60b0c5cacb5f01c0b0f63e5;
 0x1af3faf8b2da944010c5e3b35355ab593d59faae404165a07ce92ee11356d2b1;
 0x5ca179ad0da359d92252ff3324e884af25b0edf9bd1700e012f45b683bc2df0;
 0x1d6a598851b1ecbb9d3ac470d95ecbd588a3b32303a4cd8a7680ef5df2b95f5d;
 0x161720dcea14aad7e0710a67151921bb9d5c40bac136674f862c1c43899d954;
 0x23385cd49db575f73550759f679df48cbd1ed1d69932700179df6fd61870e497;
 0x1339217149da74d50b25a43cc8027420e272fc136725702f81da8835d0b9f410;
 0x2651659ad69b37a47aec09be71481bce3cab23dc04c316118d407005501b0c0a;
 0x2873755e5d79969854cccaa36cd8466aaa2e0594e3ba37b8f51bb3a6c9b87d0;
 0xbf86eca4c048d59ff3ffd610c81a7f99875ce0ff1e193415fbc2bcc4355418e;
 0x127237aa090a414f2676bc5b26776a420d7da6ef914a89dfb2ea434b6db42c54;
 0xaaf012593fc014cab8879be8b63e24ea829b780fe9cd91b68892705102dae09;
 0x2349511bcf3e14b5acbc973e40063d20c1a42fbe9e5dee99964dfd50869d0286;
 0xa13877e82fd54bf79457e703a3c5780eab1970a9b374df6988129c32e2efb81;
 0x2f13444c0246613e4a8f06c54b773a553b6ef94af65d3437c04e3f6856ee6e7e;
 0x149f9f85afa120aaa5db38e1394f536cc1530ffb639e292afb3136fb051171e4;
 0x9af1ec78d4eaa552f14fa6e7ed41842a411c8bd2b49c9721dcd6de80e1649b9;
 0x1598306c66b69a223a169259386217b9c543bb63b226c2837c835070fa6ee724;
 0x52d00ac603ae26edfd7d8945afee2021a7f8cd3719982f463be765d26be97ca;
 0x2d0b5bfcddbe9aeb4286aca9d10f9a783176bf8b9dde55008e232b9e8f45b541;
 0x22e76d617bc69278c3976145fbec8a11ded70e6bb9b14739d59d7745fbe80133;
 0x10e0725e62e660dc5a675e2da60c8f1ce756c162a10b53cda098bb147dafc138;
 0x152e5879db732ef026d2748d6b17c21005a23125ecc01ace4b2ad46744b6918f;
 0x2c0564cd2043a507901b5054db2e6eda28c94536013ce66ea5767ae453c09d51;
 0xa61fdb8748245fbbf026fe3cd6a42b873819c83905c42a5d7a01b3ce30a6233;
 0xd86b389e663dafebc5eeb72014ee4ffd205841fbbe43dcb55a0701b42c21e70;
 0x2b0ea06ea29b5ebf5946ff05dfa56da1db9f91187ae6789a51283286b7242b5b;
 0x2c9d3d65591a9ed07618ddf4f10770596a3fcf25ddf472126c8cb0b3f8975675;
 0x5eaea9663cd319d7b6390fd37a5b916d0adcbdea0ef60de5bea3db63e973374;
 0x1ceb088dc8e476eee2220df5e89c9943d28f9af36adb2dbad1741f19d064109c;
 0x1f88c713fa7f9eae2ba80f2acbee56aac81a2454add66b1e70bee1e533bde95f;
 0x5fc10c9b3aba423786210a189a8cbf0639448d239088926ab96346cc543f75d;
 0x97f99277a3d8fd2d954de6c2d58e33f65208a53bc36d1383c2d17797b49b520;
 0x295508a069661a782227ba2a74c212d4728fb8e8695f1b4826f87408ac4d087a;
 0x760bd5d3082701fd9e7d17d530a457d41a7be55ce6b608ae2363c3c45db4576;
 0xf6c413f51067fb324da04b213fa890fb953332e863df3b06fbfe3d5de732673;
 0x1b0a842b23f5f0059a02f26579d95260931b64385be42555370270cb462eb55e;
 0x898e5f4d62bb5913fe5fd2e3b75440887d1156f415aee18cd67fc9d728134e2;
 0x10f8852656055f6352276424a54ec899fc6e6d87a4299ed0ccb90011cacb1198;
 0x15b12eadb1003ae6382b3d338854a5002c15c03d9bb02842e03fbb75da769cc1;
 0x58d7f1ccddf26fdfa6ee0afd3409ec103b91f4992518300ac2a7bbf82583fa;
 0x24acf431e67a9d7f1bed441756b03a777a99fa7280b11def1061cdeb2878bb8b;
 0x1a8e72e3b76468c434bba4f191e90170a642ce7ebbd289087d187c305f13a4cf;
 0x155a981f161c8c3c756fe204ff2a25ce0f5346957d69fadc6855c6107e02a8d4;
 0x1c747b94dba58c3970414851318a6fdf4c86a5f65e4d91e8d4772f567b49a883;
 0x259f9119fafcff3c0a98d828daa5d1ac21288c6ebc8e16f4e8a85dfcff442f95;
 0x1c5cd1b340400e37a37de09bb20753d4979322e23fdac9c7aff9f8209eea135d;
 0x28972ec819ac03e65b0b00c52ebeac03b5ef78281fe543bb3f4e762e7904c6f6;
 0x277e2dda293014c5c76662826dd3d76cc7c662d28b2905bbb1ef3a3f5081dcaa;
 0x76e05aee9f8c749d1a98b3402f4a2c87be2840659a5182e15ca87f31809c84e;
 0x26b2291c31dcdcc2eb55f004c1eab496490d025f12265be835f783a9613adf14;
 0x1ecac53aeeb7e2ca436a200daaf1e975be8ac687a8102be23a7f291d9244841f;
 0x11766003bdff5ecf352014501776d0a2eee1f7a8898409b21abf35a7092f4610;
 0xbecad60e8eab107933f92495ec6e5070b26149eae6bb1005197556225239f94;
 0x8cfbc5e1f5efff8fb1736bf118cfdf0fbd81cbe87ea61931dcf0cc70b1c488a;
 0x15f63076b20a19f545ea7f9d386c63efae619defd90cfd8347e3e7eeda6b2d6a;
 0xa989c86ca97f9467240d9239a51aeba8c7772a4b68b37f97f4fba26958bbe1a;
 0xb6667027c41530cfc1cf7c6b60bf74fd15a1186ffc0b77f0976d5e1d4501a95;
 0xa87dd205830beedd3f8bf92235ce278e2c8529eb9f1a44530ce1b2626c49c01;
 0x24a833d8f5db7cf49e889fe23c518510a895801f7f287538538ba3b0828f8101;
 0x2a0116295e2074c23e1bd817842586d115cfa7103dd98245e6d364ca9d5642c5;
 0x182724024bd1b487a7a886604e4312f25df11bb2963ea152649cedb6ffcf43d8;
 0x2ec4fd171e0927dc9331540e1f6639e1541eb4e0cb74c66cded95ba05e718b8c;
 0x2bec29f75e13ae7002213bbd81ba9848501d613894596e9fa35d734ffe9ad50d;
 0xca8fe863fb236c10ae74ec094a89ff974b5d9cc498546f76c0bf1a510a8f984;
 0x157e6adc39e984ff60e904ffd85d4b06c0f7c95d8b224eabb0e1090c080a3204;
 0x1337e6b950018ae96f46214425210907e7578aeaa0f62fe3afb9877ee3101782;
 0x267f0ac325930461def6afc4f54b6d09e163e84c00a41407938d2d263fd649bb;
 0x1c049001366a3521dbfdfce92c324ad021d035767911574fbd4b4e9000ae9a4e;
 0x167db26d1f93d91141c48b1a7ecf78ab3f714481594f3eb1dab4a4b78329706f;
 0x159fa23e2aa81b787d70facf416079b68de6b8d7c0e234421fc450c2f1917256;
 0x29adaf20cf59c0820209a749c61a36b84eb168287f7ac640a37df4a569c3defa;
 0x3c390694ba7ab4800b93121bb53a36d654dcea8ff9bda64c95770fa545dad59;
 0x91f94292f6b5252572bb419ec455d5435eab1473eebd72d8b20ae3fde0146c2;
 0x29d64d0356b6cd07cabc18eb5de28728c246663c60133dd989e89af97f5dc212;
 0x304897aa5036b3a80774e409994f5d1e71a7836f577839d3b92d938590888697;
 0x125e0dd8f249486f133b8bcb9179c5525929cac3ab09bbaefd97a751bcb87e83;
 0x2fef69cb9e21aa57adc0749d32310ebbc3921d75f8b5c79978a5e83d66888e6e;
 0x1e3af408be8cfe4bbe03849a711fcad85b4f27977733524f2bd35b7166438687;
 0x4e655df6114648220f3a2a056805a636307b809779e9397953dbfd8b9477b54;
 0x2a43229e666093be6184e292b4a87d605cd3860037fa2aef07486d4f856dca8c;
 0x156f9aec7359e5427d5f97a165cab447d27089dce49f1401e96c37e159490cd1;
 0x212458241e29a83d0d11c64fdb0d2c5e7036f441e5394a625f52c1100f8daea5;
 0x1dd909f5a32a657a89eaf948a11f8eea874eeccf49632b310314d77ed72c6257;
 0x19d8a81f4867c40cd292344df8d2dd64b07fead4054107414a45bb504bbe60e0;
 0x1f285a438fc7ca62edbdbfa5f9ae627fd1a6b68d4bbbd7ab867c34db73c628d2;
 0x6edd2c97cb8ef5db711360743458dde6d45de0fb41c646a72afe0e02033a9dd;
 0x2f3771f984d334c7298973e9b2cfaa1ad5989cf379bc41f78b964073955b978f;
 0x2abbc43b9224188495cd9ec8479f39d763b8d560df4e9dea1cd7b1618fcec9be;
 0x25178f08389153aa236e1da3c3bba5e408d52ba913c3718128a596fc40755a54;
 0x1b28045d36ce94ca72ad5539c54d6a9a872e66fe6206a251a61df5afd50e3e93;
 0x11c1664633f12fd93a35d8553fb8e1ebf3ebab73614642da48f742483c0d8148;
 0x19307c6980c6adb7fe1d4539c10d6157310af45ceaa4618c0d4a67f71a4a8c31;
 0x14fae46d00733e5f7e8ebfb360853311f021e2a252705453cac23dfcd72b72ef;
 0xe3d1455e479d3b99bcb1f8b662a43c885a9911b238e08fc4fa6bd1090369492;
 0xf3e285e855de079c2f3c562b5074d095b57268b0ab1aa07c4f7650254087d7f;
 0x24ad5850b4f923abd687dbc4afe75ba26039f7d4b33cc43bb55f600be5fd2ebd;
 0xa22143eb18217e19455e023bd571d1e757ccc89850504f580e433cb40afdda7;
 0xb968c0b278f32e9ee1b4adff37aba3d15d5943a77ac7783353397b72c70d533;
 0x276990e5dc0db030b8d88a5828a4b343177dcd554fce8a36692f74ff38f64c68;
 0x1f180aceaa766f24b92552242448a01326580a9c2dbe2ae3ffbb530f23ba1717;
 0x2dddf4a14757b28de03cfe210be338cfe3b63f8a02d7fb0155ac9c6e3e2b6bd0;
 0x1481841108e80996b079e3e977578443ce0ea8899d558dd92c5cf20279795ddc;
 0x2a3a6a173401ca83d33b0997eaa2805bf7869cc7deba404f395ee14e06daa3e2;
 0x11d7372db5b796363296c6b99040d883ad66f54862b4965f5da0ee0227bbc456;
 0x33e757e99e3f1ca826c9a648a73de374a11c2838024cf736dd31c5b5f7c0825;
 0xe1bae5e746ded510eaa1145574a8468c3a7e2691a7b324a9b9efb36a9cdd4ad;
 0x21818b1fbab0cba1ef20245ed99451ca1dcca899222c147b431553016a09dc41;
 0x1a2604c6579eb3b1e803427249ecf1742a9bd72a6ad9ac3845191f8c536f7d91;
 0x2f41b5d5d349e955e15f50ba0cc3d3e854e9065f8d62461332ccd746bcb57865;
 0x394fff2c025027635cf4a7cb7588a6ef587ed994314e9f813b7ab99f8d4c32a;
 0xa9d0ebdd8cdc392ba446d6dcd5c9380dff2975f275e30f636dc9641b2a2362a;
 0x255498cbe7c9e89580548f0d92255fe9a1775569c380abd18d22004807b68874;
 0x29dfb1a35fe5c7f25490b6e2e303d711887051c092a8e642c07dc130ad3901b2;
 0x25a5995a98ef0f5402b25b2031698447ff89a9b630094d71aaedf8b5fc4ccdfd;
 0x38ff605feedf7a740e890862fd593fb712aa19b4721d0d97b0a85ea77f2b621;
 0x1aa20d730f53b035813f1504a853ec87f89bb56b05fb7b34f21deb1aad4c18c1;
 0x1124f2b33e05c415a7d9881d948b9e15f5891c816a0495e8e62e89089a29673f;
 0x51d3aef244ed3af1880d68658b4fa452aa3f8ab79eb4d1de2a1b827fb5ea359;
 0x18c3911d3e25dbd901a7377327c5622522a29f56fcb2d395c4c9ac1e05409d3a;
 0x9e0a4773ed5abf26e474c8050e9578c5398abfc42d2ae66a72c3957622de157;
 0x2de436c8a217f32be5d1451bfbff7e3f6b3ad46a2da58f8439908d285c9afe55;
 0x269ad28cb1fac223861da664acdf330c1732e75ce9d1a80071d8f623e668758f;
 0x18d5c9f0a8c3c1c62a31a12d945ac562e7f28e951145d700751b59f5c4e046dd;
 0x1eec169ea79a149b6a4c5b3ace894f421779dc9e9bb366e8ecdef2eb3c53fd39;
 0x982ce518d3d2e3749dabe6b57758fef9eb663a996dbbd91aec0ed84eaa75ede;
 0x272007ee9d7ec7efb6c80f25a2110f94d20ac436f7c50c1e2b7f6bdcc76909f3;
 0x1072d3d540d1b00dfc923dcae102f2b6ce363e5054b3dfe2bece4f96cd15d647;
 0x28bb8d7194d4123767738d6b4d73a05a94c8e93c7e08f808c3a4bdf564420120;
 0x4baa18db3db501d39e42c49f1cce30dd5619e1ebd14266857e38a753c63dde6;
 0x130c77637bdf1a336d9b4c83104ed1e7b81808142a0bf1b2771b530eed99f03f;
 0x2c0ce56da12cff29effbc3dc9b05bd07d7ad42764ff28350c7c48ce48ad4af9;
 0x23eac7695fea23aa2f2ec9e1ea7b62caf5e71ed61066009bf93a6ef3f74056a4;
 0x1c79be403821f680faf8289807244a6b3c04d0716134d089add44dbb97da7172;
 0x5a48abc281f771ec36dca6268f591ebbade05b23fb81e7961c8cdff5d5c8255;
 0x22aefc1e9a4d06cc764e9498634bda97bf11eedd5850100a6dbc858619d26bc;
 0x100fb400e2aaeca68ccbdd4cb0528dd3b8da8207d6bce2d41b4aecc1f0720581;
 0x4f0b1d5fbf7c9467e826c385424b91faff7e5f6b59e37651dc4bca500327cc5;
 0x6e33a10b9bafa04f20f3e596c0c1d986836b7c16a56ca48669d5a0514270160;
 0x81bf056335b1c44c461c4d6fc1f9e032a18b9d2f7f2400724db06385bdf0774;
 0x6ca03a97a5618ac671d4d2c18501e5e8588bd793b2c3b54dc154d1f40bf6271;
 0x114bdbd88798dad58dcbdb9a1fbdc123ed1b56490a015b7c2943eb5aad9ed1dd;
 0x21bd28fd49cb1151be1afac1cbed0b705b76058784ab92fcb3a2258291780489;
 0x25516e358045290d7bcce1b4636ca33095142d4b01f22ef7d94e28cf81e9e29d;
 0x21dee602b25e5a67889ef243ac9c891b73ebc717c7d8161995d74bf4e5bec07d;
 0x205992101ef7c5c3493aebf5fb8eb7acd01319524ddb56fb75dc159a013e9c88;
 0x667cf69b46dcfae72f7fe6b5d81e6d1191ef029280803eec032f5ffaeb12019;
 0x2b7a9027fa05243ffbaa486daacaef850c4d033b84b3641db98fde01315e5be6;
 0x2c7aed13aa9064e06c4dd9299479fd2fbf56f73edfde4a117cb8db54dc76e134;
 0x19f76d0c1f5b1efc61c645180c5441b569a90ad7110f51271046c642f78ee4a6;
 0x4749d2cc3d3c5612d7586ef1214de38f848d8b3d9afa266e153eda3920e72c2;
 0x2858e042dbd512d9ec147fcd5cc0ff21570bb5e8da3b20f7f69acbd28785610d;
 0x17a5cf2508f786d73497fbb01f1a02dd8beded89a2a3c2170ba1f3b2eb31c964;
 0x8c7b3263cfdabea784d21a2d888b7b10d6c95a282a10169c85f22a22bb78e66;
 0x1604f8490be24e6adbc37db5d23f82bd706546d4e78c08e39c1580b7c04d46fe;
 0x4d2e4db13adad49bbf930ad243167c77297abe1bd73b5d148529efd75ebee00;
 0x249361888bdec58dac53f9c01752c5f6ed7bd97fc27b3fd41e0cb90b9b2937c6;
 0x1ff257f8b90fc3cc3f483b9623ca26519e4e04ae6dd38ef24275258a7f1494;
 0x27e9c91e30b6b5e3c3097ea19fe5341727a2bd8dcbaff38d057313169e3fbec1;
 0x22154015dff9dfa94f7a8339f4ff118a8f8176dfab2c88468b2cac7e3914cfd;
 0x3a08472944a4c84ee7fe76ac61ba12ad1b5ecea7d14d4dedc8b2f7a878e2afa;
 0x227066b89350a8b139e5bf8b14660caba369b0828b4caba58600f80cace84ab7;
 0x188541fa12da77e21d041035190e0af32728193188f77229d79a08cde35e11fa;
 0x25dd5c1efd162352f25ab776985b0fffc05deb7094bb6d2879d925cba328cfbf;
 0x129f292e9cfc7cdb1b2ae2c7c30c3bb491349cef4f7d65812d66095ae9ea2aa6;
 0x206a809eda7d396d034e89813719a58caae380eb9f221f445b67cd5a7514dd44;
 0x2e7f566a18c5c428b55b4b7d4bdaec63f721b59c4a307a7a740458dcd9d05d9a;
 0x1c0df0b100e4e728a9e7aa34f6b0db0da6b8fc99c3d377f1560aa156b7f2626a;
 0xb875a366710c0691872b26d9a98a498e929acc2e677868c4ccff663395cfb72;
 0x214168e91d3b6a94d48476b1b424f16240bfc8fff6742494cc897103ba7d2459;
 0x1bab48ade466bf636813634624daf73b6c5d6614340542895795c49716351e9;
 0xc8425e1b2470ca424397cfa66665fb861a3af4ed66db9045fbb6a7f761479d6;
 0x870e13994fe31f94b82cb4923e820a13c37d711d56dcc718f4b15a03d627d72;
 0x14ebbcfca7be17a5efc356904a319f4969b4d4136f1026f57400cd7db424d778;
 0x22dd5ea69a5036fd0d4f63153af386feb23bcbd02112d0b7574a6315b4dd5fd1;
 0x1e72a099e89eb37443e42de1ff7def1549480852600cf4552fb17466abd89ec5;
 0x18fe65ff0f8901603ceaea4a7462fbceb80df62602a9c132264c5aa49de0cfb;
 0x1b649fe60a17792252a77ec365ef832fd3722505ee40b08999c728d5c6db2a62;
 0x18a42f27632071b87526d95dcb7de26362aa28abea426c73cf679450bca959ea;
 0x22ab7ea700db2b287b301d010124c1d2af58f76434b8bc47c59aa88620add840;
 0x26dada935deef8551a9bdd474985592e2a6e9ea3522c07afc4bf39577211011e;
 0xc6f417f88a5fe08839f2e8b9007e2360e1d618e1b46a4979cba59d29b719644;
 0x24788ff3b08c4d0fb0b51b9b4358fc0cbd31ca31ba05515855a33a282e2de1e0;
 0x1db3fcae24ab59721eff9aca5d5d41ee9d7831a79a45ad3ed385b1322a7b2785;
 0x1f45fd57e811d4e574516575d86501ce6be9246f5891ddef62b7ccf835bfdca1;
 0x11acec0b13d058dc6c7239eba9034aa33702da17de75d6306f282a1b2bd16892;
 0x21acdb05d55ae1f4aad873ec5adb6b6078170063a70cd2e6319ea0cef833cf29;
 0x110d9b94d49799b659e142699e767d9564ce45179b522648fa8a83b45f8d76d3;
 0x18db2b58b40741f2e007f70118e3a1a1bc2150e04fa34e421db5068de19e3f24;
 0x14768c6934126d0ebfbdef341b57ed229076d70348eecdad8647b1d0df7191e;
 0x1704d2d2e1876a075b167a65f6cc26d8837f7e2d3f7628aa26d3f7696962c237;
 0x2cb8147670f73e2ff79ad1912c835d3d3f2b2381f60eb37444a6c0c173b537e7;
 0x908b9e220885b417b58db1da0ca974c2d657b50ae1c3c5e114112a925a7159d;
 0xf0d85b4586161eb7e1353fbeb7ab3e31b5b62e720379efe3f6549079ac3e60e;
 0x2103faf663c3549c9bd073de214585c1aedbd5023e4a5ae61996f5e22b0a4a65;
 0x127ca0c64d361063a6c7da37c6c3c2080181b6dea5fb63469156f2fa486e7ffa;
 0xc3e9dd099f9ca600ede039ada789f28795ef7fc650e845402fc15f99d48c00b;
 0xea05b5d4d88b9b5fe35406f17ca1bb4a855e0a6ee7d60b31e36a2a21f411fce;
 0x963c4be071c32fd06a52124c0d87aefe595c1db2b2e6c2c9cef53456bba30b4;
 0xaff89c1e81410468fa51e7776f23a077f27446bd98cc72189f641b6456eccea;
 0x15e753027d63337a330c260000082ea07548a724dcafa255e67b7745574624a2;
 0x1f7acb7ff46a7c623381155c6829374bb77587abd1f9fa6b879df3240954ad75;
 0xc62a3de0bb681107c4dc6d9e623d0562cb6784f2403693fdd64622203b16864;
 0x16ce582016cf2e1838db97dcbece873f49f8c60722d756c551af3ad3b1a933bc;
 0x29cd5e2fd2b684e47c078fd56f852b1ddbb07ebcf995be991e9c2259539fa032;
 0x12e8ff93cd5c3d7e0455d9eb0e7e9ff940575c41c35d1e5e441e530ea888a908;
 0xf3c400867219d40e6abf2ef22a90901811ec95c61906c730cbe777761ce12f8;
 0x2a61f96bc53c2328ddc85e45096c9532c012f4713b8b8c8b1fe1227f8fd760c0;
 0x1ca94ab706e569a4fc1bd36c9b63457d5d7235b356be56bdfaef24f99378b467;
 0x2bd4a2387e6ec124155de47009789e1b945ada3adac5e35107398bd569524090;
 0x454150ba34548a851b191fb1a9f3587464de17acfdb0ddeb715a2e64373174;
 0x1f22b39bedd115a950f7d784c7031ca0ec3d1a6a67375d7b6ede480c5ca145ff;
 0x79a66156cfb99cc17c6d39fc9c2219bb89247b6caf93658d59c6fd0a1d1bb06;
 0x17ee6df0822371834c222f954f03b016b8d5ad4db1be66f3f946d5d028e65176;
 0x24cde14169b4a758c3a126ab3f8f18077fbdfee0f03fa7bccf999919dd417804;
 0x20ad08d3558c9efe03c8895ad4dc88bf8ab5ed4867e1acde6533ea2f86d9fa7e;
 0x1d0e87e604d01091898d6e85d2ab9af9bae03ab511a34cd9a620f088fdf8f1e0;
 0x310a319952f3f6e25015abcce49fa8110ba383c048413c899ac4d202c36b804;
 0x1570b11e64614fd49047279c454078eaa9cfb883a9434a064f763421b26b2709;
 0x7a6850ab997ba45837a422c1c0466e6cdaf76fac2199f13f63986b2a19cf2d7;
 0x2c25344043642c634a4c011d981aaa7e5f179ce9ea4e921e8d52d0e57169ce2;
 0x9f74e8a85c293ee8a2e71f6d23495bcd9de56c2e0034169034eee85596f5a7a;
 0x79336363220c753590ab21e164aba518966a7480c4b2890f45272368ab2a97c;
 0x1ff046afacd14fba346ce72edf23e540d10842ad7ee3c733467779518a9a70d9;
 0x11d64cc17c095e49c45eb1ca2bad482a820326003d49c8cf9e9c02ecb7acb4b7;
 0x2ed20c0b8e33f57ded5581cf937a4055f680b7d72d65c554c014568087d5772d;
 0x259cbd244ea8c9840becd72df29e96fd89b6c39c7be72b16be9f0e43b73eef6e;
 0x1e7d2f21917295fc375854225e63ad503e27e8d6c9225db35c2ba375cf4f8fc6;
 0x257e31a7b6add90c617b93325bad37127f0732dfac4d0ad93331fa7999212a5a;
 0x1dad54fad4273e93971deff7dc3fe74abef1cf6c302a64403fc7683966975019;
 0x296a02967a5513e1827e29c77285be64682ab142d13c6d2b7eb58c0920dfd0d8;
 0x3012ff61f630a0352b741e63d628ddbed474ae6993acdc0f9e314e8eca590f9d;
 0xfcb8fa2167ebb6b4f422131a8ed841306b3a0840f258d68edb477e8e1ebfa2a;
 0x135767e5d3112e0777607c1c5b91b1148ba641dcea07e1c2355c260285ba1cc;
 0x91943098fd0c94aafeabf4dbc494b6385e39969c06c0a6854de0c7e688c4d77;
 0x13010607d24e7a178c43d9bd68212157776321d95438d572a3b6ef77141e11b8;
 0x16799d69231b9802789adf9d22468442767461b49d594e9a950dd8d5ca49e7d3;
 0x1eb07b70401fe93b81df97a1f4599947a6a812e34498bf2abbeb1d256a28edc7;
 0x5cdd9a797bcf1def23e8ca120b900a7626b357ef869644f28afe0c053f3eef;
 0x24b20d885cd9a6318269aaea97b2469c2b60f7ea371c6a9c223eeedaecba49e4;
 0x2986b0ba3a3e232129e3c444e9482584fd83d6d6a7d9bf43120a4c56ee5db03b;
 0x1a188537b78ce9f663d64b5755da53cf88ecaee852442767fc16025ff7a66780;
 0x8619134749841915bf5f92cc2045ebfb124506b9b25255be814a3b28fbe118d;
 0x135cf6c3cd0c694581fc2e477d6538a7b233f89d226373622781b029340f0c6;
 0x4f9a5254dff765ca0403efaa2acd9096b7f59fbc20039138660b892c808068a;
 0x29bcdd6c672f0a1870708d37e85130225c5fc826e9e62146313fbe1ee2c74d1f;
 0xc1d777f8eed911d4cc0e50c3f430ce9a1d5d7176800bedc36f92b7e4a685fe0;
 0x1ffe8a9ffbc76d46c2ea2abc0e1fb3831f18c81144bce602811de39623d4a493;
 0x216cd3e66ee82b1da658549f4df13ec3f38ce9341673c49859ff0e831827a7e1;
 0x6b806883bf69388b148afd73b4880ff63bc57e089ef256e4a56befe78abdbb3;
 0x1868f65214ce859946a2a86eb0925a650cc4d47a95b988a3bd98a5406faaec8b;
 0x201b2cb3fb0002584beff69faa8a28968ce73207f731336a3d56860bc8d33d3d;
 0xf1c998ffd657d5af5f3d1500f9821453743face03ae2ffd055bedf624b76699;
 0x1d8d584fd393d2a8c5fa9fb2840012a4e5cfd1fca97f83bf6cca4688b3931f4f;
 0x1d4c5ec792d0f9e121c17ff5754eff980a2477f142fbb815901b6c597f5f5101;
 0x58283d9a82cbfd8f01675373aa63d9279e9bb463c225ae7895a8c51a794bf15;
 0x2797be48c99c19a141e57cee32b7845f553923b08474796cbe0eb9e79b05f8e1;
 0x2b54896116cc45dfaa47204d5156075d1dec98cfca7447af4e93457ec1d9ec6f;
 0x1b2fad2ed7baee3fb3d2197d6a9edca30ece42925f13481e0f780172119fb13d;
 0x6b54e3fdd785e099f791c94fabfc62c3cf75963c21a75a60e65da896ea37dc8;
 0x2f3c8963365a4058a8be7a91e6e451dcb1d7933aa8484a5aa7359683ccfa87e8;
 0x2fd9929dc895930eb098661ed0d152f2868bfea13e8992d08a69253b9e9afc7d;
 0x25d1ebe8e9ec0fc6d182b906d747498cb9fa55a298f8f9f6c9b4cc2eb326adc9;
 0xb6e6536ba3020bbe259f45ab1c38b2f5d36865b84ac8241720d28cdfbc34122;
 0x23b8b4db22e8ff993e12d9b81757d1e7edc6c39dd4de47ef6caca147e9fad713;
 0x1c232bf61cb7d3de8b761fda9304c24420b059fd01d42c74693192ad77634d69;
 0x6d0184a21f4593daf868d9560e4647b5283892526f6a7f9c5ee2663c666d567;
 0x1d96ecadc34f0ef9f5a9c10651d6ffe3fafa6d6c7107d8a92ede406c229def93;
 0x25d6954f6b8e584c65d70a0d9fc5b575b5fe34e7ca66d8273928ed4b8fd19303;
 0x11560d05817b7116aebc0b0e3cda650e68c0f528f62593af13587d683bf3e37;
 0xa47bc556a1bdf639aee0eafe6cf7e7b901679b1b14a47dbffa1b19afdf877ac;
 0x287af493d2f91efd9e12f3bc7c7c4e0e04dfe89fa9e68242fc418daee7337bea;
 0x114980324eef85f90c3877ae83a48005abbab0c3c0f7df46b3244d84019ba5ab;
 0x2f2f074c9bc276d9fa172a81e954b616cafaca11090da4c330f3759c68eac2a5;
 0x13d19a59728afdda4583a9e180ccb9b095f5b5729e866851982711903adcfe13;
 0x260f038a5bf94790b22f2796e77d65d4b53140ab18c617af7da59bb1ebad8f46;
 0x270944854b771115be9dae3bae6007838e81311ff77e334755c37c2f8abccb1;
 0x29fba9080e2201a4d09f179919d8f8e29b22b7aff11a3c3a1ba8bfd36880732e;
 0x735d5519e7f9cfafa9e943ff54f904badd3c07812a71155579d361803b0d300;
 0x123d88ba78d5d633ad4f4e78ec2806d642ad8d24aa9ba8d6ea4393d38c5a794e;
 0x2f2c3689a6ce7d1c36aa42906dd8b694be752a4d5643cc8635501a987e638daa;
 0xa9f37c901456b2a30e8d56d65afaf7cbe90b3a69b47112f6a909ee1c896c0bc;
 0x696d1a52cd965c61b8333cfef9f147da7cbdaed71be5fcc0a4eed3acffbd03d;
 0x2df64206d9cb7e763d94c72e85da26e6147ca02236f670a3bb97d0705cdbf1ff;
 0xf924eeec090b123ae678a47aa3d4cbb2fbc33d2ea10affccbd55bd58021cc70;
 0x13768e9d6ba854c557124e7ecf2e7b9a6a3bc1e25751c5db50b681b83f5e4e6b;
 0x5257f1213538d118ae84b89e2adde7e4003e042836fda32a65aa63c96a702a7;
 0x2eddb854c4de05814827157e9d7600e053c686346537776592c91a9c51efaefd;
 0xc5b286e46a70f81261a1799c036cff3a138dd31af847eea379bfdce8cffddcc;
 0x28ceb1311ae3f2112c59eff2f1de36f027fe748e398e61e2dfb5f41605195b76;
 0x2baa3c428d4f39e1dd51172840cecafc93869a5d4d2c451ef261b91d833eb18;
 0x12fddfcba4edc48ffa0af927e5d29d678cad43b1e5889e496512423c51c75194;
 0x1ffe4a425765acbb4dd8f671f11c3abed1e43cc8729c8d7258a787366e6935bd;
 0x518e1167639d7726de814e573f8d6e644de240190eb22da07ac2a6dd1a49fc5;
 0x1088088ca3b2ec5ef3406d8b19498409253423a0cbaa579b78cfe22b8d2ffdd8;
 0x141132e639be390f54fb46daf1bc33a698da31b6e21241ac25ba91b4a7a2344;
 0x2d30e4075796050c0f400440059b3b08141a3c096955c00720f37e3349b10037;
 0x6c0f8d2050410d797974e3a22b48d7b4aa0f4c12db7c71a319adec4361941b3;
 0x27714059b3ca2531e3a65e024d3bd46869e854b68884a6b16869109a965333a;
 0x1143e960033b2837e35911b225966fb3559f869868a7587684cd7210ecace9d0;
 0x24561022b33523412fb78512e39617226ec874021939d3d0e9b7a401794632b5;
 0x225a3a239054ef061e664b56d65efd62ddbe5cfef9f55bd402a3278b94c9bc1f;
 0x4be165a533d19b49a0151e7183868a5120a2e6422b500441050b41c486305b2;
 0x17258571aa87c63d477d10e64d069fdf231a6e47d4a31ddda4d6e5f1933f93df;
 0x2a9a6b89343fc416e297dbba6f6bc3d284db180cdde66ce94b0baea5ff716b9e;
 0x14e059588f8f8af22297dd77bbb0112f57e56c3b7d3ea47471334d34e2181b6c;
 0x8c09cf67bf4d0fd0c211298fe47ed233e6ab52ebcba1b524f66dad01366ef43;
 0x1916ed4b8a5f979154a9199566a8b361cc1007551ad9db45515f8a6c0e1b2705;
 0x11ac7a860d793f97870e952b32464cb5f501e215e6691aa5d4b79c1c4cfccf33;
 0x2770c5a5b83ef407cb79fc9e556a310bd6aa3f081e6b45d98a7683f60c3227b6;
 0x1d412d15cdfdf748f3a97dad82987660dd39a4ea932fcbc51a082233c156d69b;
 0x303def2eaf1677b5c7b9cfb679829804d6734dabcd7ad3a774bbfb9a8337bc45;
 0x241d6d50be49fb796fccd362aaf45b350bcfd74573d144c73e7ab42e3047011e;
 0x114727a81cd91073352f7f803cf621820de779cd7c6c2b9ab87cb5b382737d44;
 0xd8184eeeeaff3b2fca1a4cdab39e4951e3a57327ddee51637dc6d24464842f9;
 0x296998f1627009acc7913af056bc34280345ec6a9c27c73804ee142fe0b2b99d;
 0x145b273c11c576c7578a4b02281d9b15153775884bb6e788405c4879c0edc2d2;
 0x973e6f51a9cf4fbeca74165562d7a656db8f642c4105a2841b1b93489b1e73a;
 0x12e81b001e1e905f9dcea512b51ff63d55488d57cd25ff3add4025cf3a9f67f9;
 0x272e7880a179f5771dbe70ae7d7d51ca28914120ea1dc3ab8429565cd6a7cbcc;
 0x155b4d3a78b1d705f6ce624bf465d82325fef70167cd7784af872872b348a025;
 0x9203e60c31daf6007a9ef20cb2e34eca9d1c9d93e99021e0a383598bfe77392;
 0x11ad480fa72db3bc1695c9bd672d2e09a54e72ac9e8ca9f45ff8a1c73f0f75f2;
 0x5fe4ee300c48b0cefd03b8707154264cd513c0c883b463944dfed3040c55dcd;
 0x182a229d10429db9ff0a5258729e706fe9282c6b7ca60473ea234ca13a31bfe6;
 0x1ef4d2b668a1e1ce444d213f1ad4d23de6ccbbf6cf5a93d31687e53e967f9dd4;
 0x1cf2d3bf240e01691cc6fbbf23bf48d21eb9b889c6294cc18d1fb79c9b9a53e9;
 0xc110171a8f0642ac0edb07f83ae2c79d991a3438366f98c32c2d12f2f94a49;
 0xd82a68b0570ac8cb4b70fbf2a60bf17962ff2886284edfe5aab8ffd84314bfc;
 0xa31c585939669e5697c6b166767edac74e6359d364e1263134910927648ad38;
 0x137c5b065b8d3a7161c63bbacd60dec9eb2e17c63dc696a5d157b648554b1c58;
 0x90658991cce09af9bf77bf1fc0506346e5a03e3096921e8d436469fd75bb6fa;
 0x9b309f6388a7f65393bbe50ebd6110854a91c674ea05189451cf6afd48fdba3;
 0xcd217f30eee2598caa7389d2efa182a4756fadecf67b83915aea4b0c36cebb5;
 0x2b9a50d2973f4eccfe26616eeea8f7f2a9fc1f09e8d2853869194402179baa7c;
 0x1d444efa271e105a83b3105d469ca1eaee6a27534b9a62cc210b19946f08e1ae;
 0x16e21e081525d3dbc0f34577fd1436837c912d3924ed75557718992d14dfcf4c;
 0x157b7cfd75560a0bead677843c52591d17554d8ef8a015be23e34adc390451d8;
 0x1bc4666ac3f4cd1f5dd72bcfd1dccfd8c60fe3722a35f65682091586dd285284;
 0x22b10f5c2194d9054221ec2a9cc6a1bfc1f4441871831d5f24d3da686d4d5e9e;
 0x51e548469d19290a23fad84daedd2b5495591f22c3dc6bf467f1eaf12a09f50;
 0x166e64fa7d0939c9127aa58b7aaf2bea61dfbb3138bcdf3dd9cc986e9ca4f0c3;
 0x2e7f8d47107c0f31031de15f840ffc7b43b8f64815dd7c10357e852963f14c84;
 0x15598a6b2c7ab91c1ba768585f11d64d4c9a3f609ace9039df753b4cf9016931;
 0x83008079d5900cf73ac9f0501ceb27c3e92250eccb88d10d0e01c593202e8c7;
 0x28e30096654da16fd90ad2c20080fadb0bbad109a3ed189d4238eafd2dfc3c4;
 0x14eb993565894d0556189adc509b5945f1275f7078bec96997c3630b743e93dc;
 0x203011c30db2185e3fef5336058ff6d9a5d05c557c3de1b627bb4aad651db9bb;
 0x637901ac6475b826f073e1386498979efba98d4b5daf92d2a9abb63b5aeaa74;
 0x203cb3fdf3cc234a72ed4c8699327ab6cac0e8b7479b284c08c7097d1629ec07;
 0x1a1a408f899c84145b135ca0a7a43f35eb3cb77cd512430c325ce44a11ddedda;
 0x900c26da8557e0760b971e35af5866c7cc494ac2fbf20d862130449ec41f9ba;
 0x303a4550897edb795c6a63b60ea33cc5eef82fd0449b6a2119ab74d55e49c241;
 0x1722e5a843482b59b079aecb995c43d6b8275e1413ec08a55f218b800fb3075b;
 0x20a8aa1a0c2fb4cd10a82d702c2c30104f00de5ad99103a724deb52e9d801d61;
 0x2f980d7eddab02c06b6fb20398e7a7acf6132af1a605d0cae0182294952f5236;
 0x181489870649491f84912c75dffdd55cd0dc00b08724ea1fe43147e1996d8fb2;
 0x1dd0b954ad2e65acc5ca46615391ae78b6dd2539576a9de4417555356f9794bd;
 0x194f79cea624f2bca51d368706521a62dc473947209aa5c50083837c16eec6a5;
 0x2ae9c244e4b0bce42b1b55053a4fc96ee7affda23267920a88e87f16229fd132;
 0x1ae6a6a8c9bef477d15a21176aeb422be24e5d0f0cbd8c9cb37f4b9144510e38;
 0x24e0e6a00b175e22407de66815bddd096b42dd73fb551eb810f84e01be304c0a;
 0x2f16ab5671089f7de0bbd1e1478e45b9fa6284ff4444cefc8b43469187b83e5e;
 0x19dcac9dcf078b6a68523d3bcc3412980e5519ce6db8d12b6dab3907bbd7e0ec;
 0x20b0bb1f290136ae88bdbc15b3c864624b07ed3dff579055c1680b0a185f6b06;
 0x8e893d8af978a0fba2a42f6bff7f2fe3a74d3765eadff49a82056d014dbe346;
 0xeac99d7af74de1ad1ffaa9b5f43eca35d6083495536c0acbe98cbaf2d7bec2a;
 0x19e9e6d56923733923a15cd7f8a4350352ea308d6160473d5937e9c4b50b7cfe;
 0x18e41764dbb5d20f85831a89fdc14094ed0343216f602661fa5a54dbebc049c7;
 0x266dfc6e9d31040cfdd1088840fc0b65172976f58e0640ea6f5eadb28eabcaab;
 0x9f1ac1f5d80d143d9cd087273a957f13c9ee26f5b76cf30d3fb73c392f91cf9;
 0x1495384c593ec4da248a17aa457bdbe8cf95020159ff46eb973a6b558a6d46dd;
 0xa11a63e5191eba16f6ccb4e92bd6389c929ad153c53a130c933a41f46b6b4c8;
 0x231a22a2e0f6ab20466445129d96a40feec1b299509949588c0f58a766d9b3f6;
 0x3a3eb1110d75b9668d0d8a48da076e7dcd2ed0fcdeb9cc3538c11773047ba5;
 0x28b52bf6dd8d0c5413ae7bda5f1e6b5d3e4548a4505d08e36f77b72629d97790;
 0x1ba18831433cb15405ee724bb4281bba541299cfadd485c6b17f74fce436cf57;
 0x1d295967084284a212b841ea2ebf7ff29ddcfae8dbeebd9df58b5f862e7fd808;
 0xe863567d788dac1dd5f3244564aed928c7923bab8962452bc7885724a93472e;
 0xc214a5053ea609e5608e9a6d54343a32cd02d324f6053e338b34dc0701ab5c8;
 0x16ffb0d9b5f3fbd6bdf1d50383723cdd72f3530d3e7ded29883b900083c608fe;
 0x20e05835550e6a362606f50251d8ac0706e2fbe57e46b4977e52e1adf3489e2e;
 0x1891a8d1b078650521b08c416216caa086e0e98365aa1d5ba41d4ae076807ade;
 0x1bd1319ea81a8f89e2da3f46fc7479c5efea1e4237bd5754f56f719b23c107f;
 0x1c4efc3b2c0f2669cba549600ac023f7815a95d24f9476589f734ad7b94fa8ed;
 0x2438e3bf4fc727a743f4c4409548240e6e852939f03e85e352c31ca386c432fc;
 0x28a8d250a0a2aa2acf48d79e043e252eee15f1d1e6a84d58bec3dfaf37f0b855;
 0x2a29e7d381d8d8083043970efb8aa561868393850a0f34a0a7ebcd3d7e36bdcc;
 0xf9e579ed04df85ea802b488588769c3c0e5376c42a968e8bd0b02dc23472493;
 0x2a81dc03f49acba49709e9e780c56aaa9ddeb245fe6026d784c47cdd89a15be;
 0x207116aee1e7b7022a90ac821435e9f7ecb94f9fb942f7b6ff7c6342a02417bc;
 0x11b431f3210818658cbac818f63655dc6c31f00640c487031a7a6699b54a7242;
 0x197a50af9dec2014518b3e2fc26013a44f706466d4596f06243f255ba3818325;
 0xa6fd02bcdbfcb0200dd89f9b86669bfe8627ce67454b2404d4966f1726f47ad;
 0x5fac5cfd5e2f5690704f33b440e6f739fb4ff4445c5bd3a69789db652fae459;
 0x27842cf8a4ebd7009ce2d7ec348ff783830acc87479ad4e401efd5e7339d25f6;
 0x2278683aef662a07d427d0a36ee6b52ce9628e9914cc53bca5ba4ac2493663ab;
 0x294cfee66c7b8de505e0c76e2225619066ea5ebe39af92dba7ab74b8780853a5;
 0xc6b60a8e2ba1b774f52c1f598d14cfcd9aebdc8d72d4c87db9c6eaeec4df37;
 0x2f5611fd9b8a9cb052d3b6ef2b2ec32d48218862daa4e54d63219fccb9e0ac4e;
 0x261bb66ac988ca3a7e2dff027944f8fcb3decb9d985b05bbcb0fc6062080caca;
 0xb5e36bdb5742eda03a1d1e3044465a751fa29be2804ee69b38c2f29438624d7;
 0x1408760c6504e35db02d76d0b6a1755719c757419a494baa596e5ae0a4b31219;
 0x2f898e5947f14b0655f04bce35dfe8b08aa41303f602747748353959b95d7dbb;
 0x2d5fad29cbf4c420e6192ff7eaff97862de5523acd6a81ae61197e85e0f220bb;
 0x24203764364f1ebcc8f52daf648af6b02de9e46293ef2f52b8956269f5a30458;
 0x1a8627a7fa552c1cd073aa53fd7cc34fb7120513e2a756ff7335b6ab23d47e32;
 0x19edcfd6befb3fb5dfec768b5c4aed2b27dd9311c4bd49edae8498386de5b3e6;
 0x1eccece3733c2a81a006975b9e433e6931da70c649fef647f368a67682e1a5a8;
 0x13a728b0bfb2b322c8af665a8478913f2f1693b39077eea89eb81de4125ae1e6;
 0x1773b5b09655e9bddacb50af4f33f5e75c7eaa8f4bfa4680c4be11c71cc2abae;
 0x1d91107ecdd5de37205bfe827e7800c8466f6572bf611a77d4d502242af5b230;
 0x109e58922b02d172c8363f88c5b9225cc0122fb980e0d210b84d74a5abb01a5f;
 0xa0d1b2d14d861fb04c07e85f40ac8a4af481ca602bd224bacb442290ff74b2;
 0x3ad94a5e38fbfb5bbedd2d3617e6fbcff4f5b0bf89329e01e8cb9538f91c26a;
 0x235269a08752712471e2d8b204cecbf633f8a1b087b8d50d4386bfdee47fd0c7;
 0x63d22c46f6125a208206f6991a7e553ecddeb4334f770f69715b9c31defee47;
 0x244852bd0f883825948fba58c795389f82a0c6cabd905f6f6596d60b8a72e7d7;
 0x20c9c3fad08a30d64daca24d77cc93e07fa9531a9458b64e7c36e2b8d5de7a55;
 0x28f02c4b53c5fbb9b84f9be7f2d1151a3fea40829596152ec7a9591d7b77f53b;
 0x63282e45c9b2fa5c6ac5fccb64f3a941204d8a7d0dbfb6e2f2063ba79dbc93f;
 0x1322957803e814ff656281a896a1b454f83ee7591d04ae45c55894efda0d4679;
 0x26f91c6326c5dba2e2332e65e25adcfa80ec44deddb1cebf62f5c3b90fce07ed;
 0x1b006a8a282f5fa8fa8268174058fc457bb3e2270dbfabf1a77ab10ff193e1d7;
 0x44b4701a897f684f973ef35f913c8714b23a0bc6892398d2999d5b897ddcf33;
 0x290fa6dc0e09ec4d9c78594891374807f42e9aeddc710dae63c9e9a824f1cf32;
 0x281b64631470b98572a677637e538166edecf6a4846ec4b66857aa8cea9d612d;
 0x1bce47add587e607ed688687c0179da17c54ca73f9b4f6091f816eea1727536f;
 0x15c8eed354694a3012b822620bc91f1d68c7bac0e6685f0a15c48ef58941a196;
 0x186ea82f0981f8ca347f0a9eec056daba176a44465cbd85e7b8eb7bd0580ff85;
 0x3014777dfb63a11a3d9b734e7a47a4d3b6ac4fe406e195f3ba32a015817fe8ac;
 0x20ba24356eff7ae0b9ceff1562a4a41585aa9ca0d45915204e433f0728b15997;
 0x2e6161643b1b31dc3829448622dfa6ac7cd79321ee432399877dc4edb25edb32;
 0x24b512c632070bfce3efa8bd2f34bc100f0de647d0f5510269ff2c01c7f29ba;
 0xa9aeec22efd017571affa68427722a1fdea69288086f9c693ad2a42e773b59d;
 0x15c908e364ab93c1611361ad84f06fa11c53c2311ffd1f4694d63b2b982c5772;
 0x2562b5739170c5fa1e1cfde87d7a56c2795a1df9c0d6e500fa6b3759eca84986;
 0x4135965e6fd02788d00f9ae2183f19e0936288807f48df45ad3ff1a70f69e3f;
 0x1fb4eee3328ba9d3c79f1af71a38952c405f3de71458cf48856da83e06a96f8c;
 0x18a5e35384d4e479459ad405c05532553c24fed90b8393f3a30b8c38bb2ab3ca;
 0xfff7f73e42a52ebbf30b6e73fd4d45c21133e4ce228f534ff6e3410b5b39f17;
 0x159a3daa666c332a12c6c56e7b56e626d8eea9f2a36ea6aace95834ce6cc5314;
 0x1424875221f68cbd4f0de4472ba76bde5e4c790a7aff782b4eb121419d61f567;
 0x18b3209202c6757549296b01095c5cc390d7ae27b5231dd8414e699abb18613f;
 0xebaec9cab92b182f65ab68cfab4cf7e1a80a36714bcae30798f61187a6a9300;
 0x115552feff175b6e3289516c75c721e15922ceee83425938783434d12dfaf147;
 0x22d004875985eeb33417b4ffbccc689588b00f5fb99c76cf605a0a2428a82185;
 0xf396a65933c65ad9b540ace1416bc4787aa4b6ca3f7f2366a4ecd95ef12ce3b;
 0xedd7d28e36173f0c3b28207ddc0b55fa12e4f54da25e7619871ca8d8439d42;
 0xd7d9009c3d6797090e6e1059933e21362d2cf037e251fbfc2b6e18611875baa;
 0x2e368c153fa35a3d9ca68c21a7ca58a90ba28ab252a18efce5a2d59951d7e480;
 0xcd6774ae72e071a0beedbeae7a449ec52362f76e5b0e0a4419eed187a31bfea;
 0x13c25853d9680d2e8dc8c684ef48b202e7a227592f76010a20d593ed672029ee;
 0x17a717d1e3f5854fb59b7f09e6f8d513e32ddb8946467f7080beb8ca10fba076;
 0x8691117ebf4e67180021fbd6df623ca48c067e9e890e1739a9672a2eba49ec1;
 0x19cad12c44534134c3feba2082a29dafeb550920f13f376ccfb659e835ce8ab1;
 0xb7c75d010ff98ec7b5ad1e3a17a1e092c353c544f8e7f707f5e816519fd6fcb;
 0x2055156145c4411db547bef92efbfd4b8a1bb5fe2e13193e0d9c07f39e5875c7;
 0x164afaeb4166726964fe5a079a1b332517980c47a33a04ce22f56c33d03411f8;
 0x2936c50982fbdb0f56cce6d4f575a31665fa813d72252464c2776a70ecbc2c6e;
 0x4de9f4b9d4424cde860ad5534daa8397b1b83835d83f00372fac4e376e6e907;
 0xc6553007546816e86c7d90552a6ec216f9a34987be622be17ae4eef454d5a5e;
 0x1a7041d055f98dbe2d87333de8a3d0b4f6348f4eb2968aec9cbc7dc3342587e9;
 0x1467cef176cb717eeada2b84230336a70ea45e0f4af5c55a44aeae23ca563a48;
 0x250aadc3ae989f3e82f4ab1af04ea5ad3d92a98151d06046b6354f98b046110d;
 0x553972aee593ebfaa45c932bcb153e62fa638167b46555f9a8a74a361f78afd;
 0x4e5656b267f8ce0b1a315f9493873eea35c1193f2febdbfecdde494b6945838;
 0x19401e900ace225941f6c581824e338ff98d33f2f0b43f3b74dfbc0951eca86b;
 0x87253b2116e8fcb45f8eca1b3cefd921105e9cefb33e3cc0bf7da006383b80b;
 0x135bd80682f771572bf574f3f714f34105afb21e87d72c40a2f46ecd8518ca77;
 0x11c234977200db6c688fc254053ad3016390a025d0ca0975d1337bc077db38cf;
 0x16a5b75b970e48a5ec3eedd2dfb08d2b6c95b732dadff1e1c81e81a3dc9b24b8;
 0x27edd6afb362a9da2f60335207d7296d0359d339d418602a8c27069d167d23c;
 0xc7a718e63c1faf872af76187c5c3f8ffc855d4095f5c55dbaa00533515b238c;
 0x184d77c3d6d7236db32d9a3e48c95fd448a5a0c1fd3e5ad15faff8baf1039019;
 0x2031859dbe2a3689a9975b41196fdf2eff1a587a9247361e78b7b029763d63e4;
 0x305690c19d76dba5dffaecece28218096a32980cde7a9f4205b1989fea80dc6d;
 0x2de2fb494197d9c1f1451641efc2473b85300d05c0d27e7ed1816de14c94a9ba;
 0x257e7ecb38903e44f1a558b49fd0022c3bdd932598472c8a12602b7a020e4c35;
 0x32507176faa049c0dcc74a8ffc7b327ac29743679f21ff553170afdd2f04bfc;
 0x26720296b4837059257a06bdc3b09d26928102cde57e23e91d1540cfefc4fe9c;
 0x1af78e5e918963050a415db24ab45cdfd81539caf74fbef4b800473a6235a0eb;
 0x2fc7b7164ff4096593f45cc674765db55d536cd4e86711085fc05bb2a7cffe0d;
 0x1a4ab0f4515b49bd3aa4adb03fffb4514d9aec224f6768315bbb2365fe99dccd;
 0x1de216e2fada4c24d7fc78f587496c24a8eeb7aa83fcb9cc737919d9eb3d85ed;
 0x1aa330dc4e25a8d0c910bfc87a7ad051e48c82e62586179b18c2ce956c8b335a;
 0x3d5fb1caad9fb50491a73974c8dcb282e868a605494dd7a1ff9b2df16b0cd6f;
 0x45e130424d8e0d943c1188f9521a6f799334f57dbe62cb05ee469438e35b4ba;
 0x1fafb6e25f7e91a4f20039c29e947f863c090fa29dc5664d9f8a69261327e4b5;
 0x287a56018cd08f5d6293e1652db8cbf40249cdc759a84dd7cacf4979cf4df559;
 0x23b3508c33e9cd373874da82d6c15c250aac99d33de516f0351d7c421545057a;
 0x1b3745b04ec0f843b9fd872d6dee97c8ccfe952a3617716231198d8bd837f44e;
 0x2dd389f08b6fe3ad079bc9d1daed7b1698011d74a913502bc7c7a7e1d739fdee;
 0xa8cddb9be00c6e178f3ec831482b8d7dbd7e91b5c8f1da27f1386068e58fb14;
 0x2e89a90cc4ade3e2150cad862b6cbc4ad40b8fe6779a8e61efc4827f5e43aa55;
 0x2703815217d57fb62633da64e4777229bbb663fcca7628ea35101a5a6ef991c9;
 0x2d1d570be0820e8d90f6eec8bba76821e90ef209d705604d6e43832dc8760295;
 0x2d9053b8863ba6cd46acffa0891c0720bd9b78fa1662bc0f842a1e05de62400;
 0x17f4b26ff311b1b4d54e74ffa45ad283565b677ef40e2e4e19a635d638d8d344;
 0x2e68020ca82963085aefcd925073a6427050e04906e7930c133f1889d123026e;
 0x2574c30da10c274e658dea82f3d5afb58da1a834cd25b7ffa5c59665300b1eb9;
 0x15c361a25585226a86655101e0f0f3136c7b777521ac2409e56e666ca449763d;
 0xb54e1c8bfe294a08328395dc6cd3a353108221161cd70fbdf118c3954cab9c9;
 0x1805115f1d5b60191ec5a8733ccc5b1b5b4a32d81c70f23982df2a2599528916;
 0x2934d73dbfda4666b331a0cc2f38f7e83ed8093cf29d111ef74a7a8d7072c5e8;
 0x488ec3a6563536696134d8a0a51a872cfc4aedc458c44eb6a7235af9263c95;
 0x1319d9b4fb3bd01426ffcb26f256b4f8634e0f18f9597dac37a0f5f9a00cbb47;
 0xab5e82e345e304b1a8a0f657fdf3fe03efb006b2e53fc8e776506796c33581c;
 0x3fd68ff74722b09cac4d58b377e0818671d9ff52a211e449ab162c3d0cf875b;
 0x1e7c552e5a8f3605609c3667bc1f8153099f46ec8edff78bddcff7e42372d009;
 0x69952e9cb26d8ddd8ef84484f4fff8495601489ddf9cfbc86731ca15bc2b42b;
 0x69de4322f390fb4b3c4116596f9a8f51b00f2ecc9ed53b8ce87037a5d8cb36c;
 0x122e535351d03790b9a1411ebcd5958a16baf61b01c106f5f158461dba427258;
 0x22ff22f011f8c226ece797d1e36b1201449338fbd523fc46ba52fa48b3227b64;
 0x1161d30490f1a507df1a75be86a5df94d448a224111f3c313ac3fd273165388c;
 0x2ae2fa2fc3962f22ff6bbd4376b6477b2ace3fa963586637d700ae936d92be09;
 0x2a9dc09bbf2c43f2dc75ab6f9bfed365703a43b9c358101f7ebcca2082653b20;
 0x2f402e60aed9c5fe85b9face12c2a770483ace81132fcdc9fbbc7eff4874c30b;
 0x14f352e9dca46d65efe8bec37b89a573f65f0aa8e0c753bcd10d24fd045fd0f5;
 0x13c70c3bf42ce34c36893390500b82fb1486a30d3921b4ecb1fa47c085f20fd9;
 0x118619bb14a53a21a1ecef9113b10e7c6b7a36d3b38f7e6ce5abaa97fe96bf52;
 0x236a45b272320cea6a74280f2a954e3b157174b892d5f3b2ac4b6e5c4dbaf38c;
 0x20fd78a9f662d3be07c07b99e4d4cb804974b3fae1ade638d8800e83490b31a1;
 0x4992af8b903034facca4002586466136a675222093ac348a7784c8bfbcdd9a0;
 0x2354b2ec8c7e8e6d1a93f7307342c7b66dd6cc9313e5db3d06c380feb249193c;
 0x1ac8c9558885dfa7d7df490e11b102854df3de5b14c5fbfff2f7aa3f31fd2e28;
 0x6367597ab7a2e533d99a4447726388c35981b997632e555afdb491746d83d2b;
 0x1436363c86ce4a176a882bb26c4b75f5ad8da469935a7fb3be81827d0b5ed494;
 0x251e61d00ab4ef232c33d55a73388eeddd65e3133bc4fb3edc709797e9529b18;
 0x273656870c7b8b89d38a63a9485663adff3c46ac7d43e61606e26f5191cce0b9;
 0x2ec2b54c9aa440e0fa017bc29135eb124aea0970864b8f1d794dfb16f8b8cb16;
 0x134c654f5a38eccb1070a5a78831bc005ba6ac7d7a3b76e555580eb1233f949d;
 0x29bc8e34b1a10f97997502440979b118c5cf2af2abd97241db406947505080f2;
 0xcf3112832c45c48c1dcb5ed866a51365b5bb7949c0cfd9aadf67d125d4f3ab2;
 0x78dce521d3bbaaae5c79c768ffdccd8b04e111d8b46c1f2ffa6d2e602ef31fe;
 0x162418eba2b1930a1a9a5b9fe0ade663448188e25b28ac81410ff08c22c70f57;
 0xbd3b4988cad29012c9dfddc9d2d75812634ee0a07456435f1a0f73c02ea08cc;
 0x11e33b5988d6b2e5672d58c5921f7b1cd7290635675b9d3e0cd07e81acb2f58b;
 0x72bf81a1308cf51759f27217c968746b32324bc9d429270c10e1671a6f3a759;
 0x55853a33d1150e0e106160fe1d7fc65ba18fae5cbe59e8fb6bc8cc7bd663216;
 0x2083fc1ad350d82f1d43ddd5c7fa475268c2927e0f02e6be71e5090f82137169;
 0x26ca79a855958e45e1a89bb4546f838b67d98dc4c8c92bec26a0efd674ca6211;
 0x9c669aa0e831572be5a542e8498090ef693900bb4d79a588aadd5cdcbe62696;
 0x261cb90ab796a6235a92da9adebbc39dcabcd01874af5d63d90d66037ba3b57;
 0x7c14d288cefc862399a1156e7fa72defcfbc0466e0768abce1e35366450404a;
 0x2ddcd6dacdcbbfaef37cb2d4c5060f0ef36f1110807fd81c43089cd45a26da1d;
 0x162d3c3fce8f30204c522782c0cae66f911e432c8b4476166b35b5f530d3e8c8;
 0x90fbafe1f865f43fe3a21609b7d8459fe348d60a4c471dc62a0afc555cc2648;
 0x1dbe8e50c293846305c51baa3473e29dace57e6e1af48fbb23d81556eab5733b;
 0x19ffef9bd58ca547ac02f4b953cb941def36fd834c1f5ec5a59418b2d22df911;
 0xe29b047951b6805c19b7a21ac7d24129ca8f8e2b385731b2194c1905f21e401;
 0x198d3baaca379db6105675052a55a31c1fd44a8773a9d7c789bce06e07719d32;
 0xee8deaf28778a46bf818104276bbdd9bb48926ce699bd185c649a8b4a7ec16c;
 0x303d98318c186c8579d1803984fde3284744ab161f14bc457ba045f3c1329af;
 0x265d7fa88c0af3c2ddfac0db3d464c31df095cda96dc391473f833acf4f64807;
 0xedac8d8183fb0ea31af3b383ef9f921a3c293e8bdbf95598f950a202a677cb9;
 0x29fa89d16190d1634704cc096f030dc8cc7c5c9f86d13d95976b6f178ffd2154;
 0x234c3e31f412fc1fb7c9a5b70ebe31f33b5987c73555fc0e4ee7e75280d84264;
 0x2e053dc186786e4471d0ac6f5e19b33f638dc8f6439077e2cf368d14d4fbae61;
 0x1d616ac50587ff0c730b1a099a8daa6e05c32dbb5dc36649d9ec0c1feef2b533;
 0x37771eacdc853125cb0bc917610c0c3d3b065560600b4aef883bd173adc47a0;
 0x31c46216616ae3241851e82decd045f40a89607c578c6248098b30c546e1e76;
 0x482d1d2987d7bfc6d256af3072b41696038a557c9867a8ad267027ec3a5bee;
 0x2115d7cd1cf9a84f43fb6426aebb8976578ff3e5646f89f240a48acd16f0fe1b;
 0x26da8474f5bfdb9c88e0d72f32227af2c5f4b6340c8ffc96b0423b1172c7f79d;
 0x636db5afdd335e31958a70e694e17245df7fc8d148d1cbe19ff880e7dc0af6f;
 0x7096b395701facb3492ac24564c468026e587deab49ef63c528f418f7e471fc;
 0x148bc6df9f364b928d68180aa6a2667a29adff966cef3e340c3680803333bc31;
 0x24dcfecbe203abc67313c8324c6339a22a9a1f72fe944591c8fe003ff2a19620;
 0x20db93b902460ab611256f28dfed3e7003b3d3fba36d7bef993f381f3f2230d8;
 0x44e39201aa990c4e32c94409c1b1410fcfe511f2f5abc94216b0d9eeaa47a1d;
 0x2aaf90c30ce60e19085a54153f4675921b8e65e712bb4b0a040d4c11ea6653bd;
 0x23fa0908d7d89f3673ea140ed664f7d1eeca765fb236ca8a78ef2bad304a9cf6;
 0x1f19c141089be7fd73fd0bcbc3e672f924e9d97fe2eda429fe25f5f1f8c1d477;
 0x2fa5b884aa9746b07e87209d1023582478603a994f1ffec3c1d662fe09632dfe;
 0x272bd4357d44e2e2c152f694efbbc238125f0f534fc7a8ce7803a7e77a43b6ff;
 0x1270fa5808c0ca1433423b90060c34ade01f3a9c81b76d4d2b3cf7158338639d;
 0x1b47f9d3f2eb0fcd707a1d29c7f0fc40481fb6bd2e192571358ad06e42995218;
 0x1661bc3ed40445c9b8f5a6b74ca52c81e3072117a6b9ddeae562f6f51bf9b8b6;
 0x38c8f5bba73df7d9aad4f06775a656a8eb780c0b8783fca440631d87d486e0;
 0x3797c94554c71421be0ea2108bd5dc2d6172f9c0b51e818cdf0c998e7658b5f;
 0x26f801cbead2c26bc2ee66c9c561d6648f9dcfba02d573316998070d434920a1;
 0x1bd9eb0781aedb96c9799f709a0caba80db0cfc155c437d27ded8641de18e61a;
 0x1485c83f748186c1b8e237eaeee6f23e093c2509838436c084c6ef0b88303feb;
 0x195ed64dd0a8134694858f96fa14afb40218dac40a3304762325b8efe03a9485;
 0x2ee31061ca7160cfcff414af67dabc5ad156a9de263256b791270a6acf9f0969;
 0x15d0f0fb824860bdae5f0189bb09ce4b3bc002a7f86e93bf85678d5c9bd517b2;
 0xbfb2fdc19db2d9d7eaf8f2549ac9aeb8e9dcd83c91e67a047d0fa7fd36f385c;
 0x179cd6248b5c0af277b392c623b744f865a8b1fe851df27c5fc2a47a0aa1fa0f;
 0x19f1469f9c81707666f6db900e8d90123b715e74ac0224adc357ccdea8737fa2;
 0x21339a2203afcc5f2cb1fd56d2ee9179637ce45abd2dfdc9a7c561cd7fafb68b;
 0xe65726da6be88d5f916154d202ad3dbe3fff5d65ebdc29c7c97ea82d9987e47;
 0x2564e8b0fbf65f1436a9e716a5ec7e079eed2d6db71b7d94a2f2434e0068682;
 0x2a236647dce4e45c60809cf6d1603baa4362953ef852b8f785ee5e959011ea49;
 0x174acce9e73a9ad5ecaaedfdce776d4d1c6b7761fb1599ccf97032a59c5f3f1;
 0x10cf2a80803b6802cf2a63a37e127b556b70d65bbb61657f6821ca45a06f240f;
 0x16167f9d1b3ab094f67d0cbbf40a315fe39b45e4540768f3fa35dd6d55baf7fc;
 0x137b1b07cb60ff07b21aa151724f9bc6a50e4a17a68f2aea512fc1e93968c897;
 0xd590eb7aaf8e30dced18ca317ffbd048a9b0fc80d37c54a8bdb7724d8dd645;
 0x2d0a63690237ad3469abd472e450c11fe51ee1440d3bb309b2295cb954efd3dc;
 0x22d55e04ba0d855f42039d18a1dc14dd16305ae516c689d5141a9ce5720b8f7e;
 0x1cc71169f322b9595897b864438208b66a71902b73f9518826158d7145dda58;
 0x21f949a16acb35194d9e53fdfc5ac01f3491775170254c2cb4b91772f46636db;
 0x14cf5351c14c087a59cf5fa5303c5752c33d446b5cff317e4570df7d685aaaf2;
 0x10f13bf1727ad7e9069fd6701506f958fdf59fd2d08b0fc5048c9486b43eb64c;
 0x632085e771f74df8fcf5ebd07f95373f832cb41ec980897da8a860c05e9b0c4;
 0x16fd673aa4b499823fb173d9efece6e6b604ae03bd5a8c677d7aebfbd73bf592;
 0x110da915aca9c87a2c4614b1ef6d6f03d8227d6c3e2d63bda028de1a580a438a;
 0x1e6f125f3f81a4545935e520f5ebdaf6f99a0c03b485f582fe23a53ac66c1b8d;
 0x12c069a83b55b665aa90952fbfa8347ec157c11539f49640d4bd2358da589b37;
 0x2b784e2f52c3b9522dd48baf6c3fe282e2682ecc50fb16755ff8a265ef6b882e;
 0x1494861baead0058801d47ef56842723c6b96d04d382e47c45473eedebabe484;
 0x9dc71751daa5a14501bb2c3cb8b22953f3a3c3c88cbb77b1931181741dc7095;
 0x21d3e12c5de6525d5dab5a15000888e8ce36f40be3b49f03b24cffa70c739311;
 0x1b0e70929f5772f72eae56c8a272d3195689ec4688d96570b46e19fbb66872c8;
 0x140fe4a3946bdeaff52c0cd3eff628dc40e30af8fa8534c67a6d07c958f33df1;
 0xc7349dd6d791d4871433b501fc3c593352fd6995dba4fa687f501ec8986f0dd;
 0x4b0a35cf626c40f82a1f07b916076c0d3598b4414f73c9f6c97442024441a3e;
 0x1db02b68964ee9cd52a2936cc783cc12f88d98b60e858cb36366519fa012b388;
 0x10e2e956993e23f93c073c7ca4db0bfc7ae8e558f676b89b1ee66086203c0596;
 0x1f45de365f1d93cf840280890e369ef6e4c5a98b9a7f8339ecfdf604d5e6f82e;
 0x1cbb85bda895dc172232f7d59845c6fc171016b82c91d91f433261fed4ea9c7f;
 0x3d3f3bb86ef161295f9134bfe58441dd72b6461b5fbe2d5787902e3e5ab1de7;
 0xfff02814d47b34516dd84ed17a200c44ad72f4080f8057da77060d11471e9ee;
 0x2e9416d3161e4f7b023ba61c8f6635617855e308d6233b4e85e941f7a5e6c9f8;
 0x5c70ee3eeb80db84501c1544c24161ffd5513bca5cf2b5c740011e3793d8ce7;
 0x666d733d249dbde4fed105b2ea2d6d4b991983e2b4f58ad54910923d0965dc3;
 0x27f945bb22dc180a99a596449e83b32dbd10e78bf4367531ec11e4da936f39f6;
 0x12e27af14b7ece9b8bcf7bc1c9241d0d85f9fa47c83153836e199eba8961544f;
 0xa8d6c9fd80c799bee076177a1f9d7beba446ab13b7c79956f07d994677946fc;
 0x8a0d3646c476269077062dc3c447553d61a4648f306d20e56fae32d109886f0;
 0x73faad575449ac35cdfc514717251bf168ececf0329752db7403c5463ecd84f;
 0x22ee22f436078de048d593f4afbabf56f4a3fd4e07e8a6645fc68541f0e5fdf0;
 0x1b50235ad3b1a6f6ac75de3a9f75f4f39866e6012439c9c0179ab032c4266a5;
 0x2ecf4f3c84f75ea7b10ec11a6b2596166ce9b5a28a526f80cd02d665226a3feb;
 0x27ec7f3ec5624cd3319ab85f7df1380283a59b36ebf18ac38bed751ab1a04bc7;
 0xe576250e1560c77cab672af14ebf856402468d2e9b0ac03f3cf29709e13d931;
 0x2251f276fde77c998d42b5dad05aa25fe98a908200b440bcb7babecbb77e7ff1;
 0x28dccf77c467c7818192d4787e3848bb057c49be099f60291a2f1e48de1834c;
 0x1b2dbe9236f5a27ed5c9e3b70e099432d324f380f39158e119069f95921133bd;
 0x869920b8f5026cc43cff18be390f74c35586cd2b6943b29ef7b17beed277832;
 0x16f4fcb1833619bee667206a2c91cbd91055b10783059b0be52e1b656d67600c;
 0x2a50cd6e6942fca74acd134045c28838838723fdf651da02bf3b3d7741390824;
 0x2dae4ce829a70182dbdc41a8eda89651110b2c99c60565ae336df2bd2afbdb6d;
 0x2dbfd9447d4214f9aacb9f5d2924d545d07310230c1469afa03b283b8c7ed93a;
 0x10e7bad952c8a632ade1d077490bf80b125c1a05ae4ef7912e69f152d6406de2;
 0x28d4ab3097fe8d0377f4a2678261166b5bb24c51f04d768082eceeb3c6b1fb43;
 0x772b1c14cb95aa6b39de1d4c24ecb7f08d26343b14ad85821ba29bf5983b263;
 0x1856fa356fe94847f57602f5fd41da9d4ca404f858e29e7237568a8f1f52ca05;
 0x2457b8229dbdb49c207e5a1208b102b0f86c9f2a76b4a4a23c0d423304bfe9d4;
 0x45fbfe6b2c8759a8234e16f0f4c37f53312596fa90b2b7bd27f0b55dc5aef77;
 0x17f4e29758239596e70478aaa8b63ff126a74055ac5b80c775c0f924d80f2c63;
 0x146cda97d41fea38bc63c955144a65223d4f5652c51bee160dadbbc681252717;
 0x15cccb291e3b75673baa8d2c4846ee56da33ddb497661760c4bf19d52503ec2e;
 0xdb560c5e93ecd131b7b26a4b777c28234c9d15588cc5e5f2004880f5ed76d98;
 0x277091f4d68c4dbc1b8b93570cc249973e892f48db3c356a965816a23b286841;
 0x230c0878b8e670672f23598b7717cef1b722a448d9d14e04b81ef722e72bb505;
 0x1d7aae3cd8dd3f91e27cab6f15ba2974fdbf72782825f99405a50c13a004446a;
 0x2c87e4b81173ce8fd99c9bdf2f0c4bd39e3245d84cbd89d79d8e9fa7de963589;
 0x2b3137b3a764d5f3604232cc17dd2e8ab96d46a7df9e68419b4e7c18ebfd5a8e;
 0x1d92d102f4f430d0e18948b9701b544e5413d0b5bb1e056ee2672165bf52459d;
 0xbff74ca04e6568b8feb6a03494311339d7490a75d073368242784ea71f0520f;
 0x104fb3aa7fc80f7cd356a96401b415aab91c4077426fb088f2aa972822f9786f;
 0x21d5c5327f9c0ac66eb7da87ba7a63a24e47d8e03eb49817ab9f1070d864f603;
 0x2f29beb28120d9bdc4e147946cf7cc260bbbbe5ea6421d7d3bad99af9f3b16e4;
 0x1661d9d3ab98e7204b2355e05768d6cf4367f30f1446d8cb57576c71d8f83cb3;
 0x2b406f2b9f13585e0e5e44db5210add697cbd3f0b523249a21ed63494097bcf3;
 0x9d507b50072650b0ffc5c36a63a35968063747bd70a655c9f0e07b58ae4a881;
 0x17e38db767cff7dfafc813e9b6773e75d9f1257e8bfec1ea9e8329e80a87a7d1;
 0x21b5c11292bac2662798e6098d0ad0f29f8e6d826adf5ee133c21504ce0ab2c8;
 0x35e47386120af666c32d7c4fc87052b30ef18cfc2b061937e935b0903134fdc;
 0x4f981d3a984ca2d85f9581d7a74f859b61c3e0136d6c450d17768ca1987ca96;
 0xc2a23457f590b126af6a4c54d1ada810121f4cb4975d8956d844cffe0a5ba5c;
 0x1b5ca14cd976dbd10e76b12b7bfbc28a54ac8afdb669639dd4c5f69f91e8a9d3;
 0x183f68d1a9dd706109a8936faad813a89cf3d8473ccdc77b3ce29333b7aa7aa9;
 0x6a5f95d98b5573df52a7cf20b0e3336680db5eb7833194e82a92ebcc6ab03e8;
 0x21403b255d1256c0c736ceec52f224c6b763f8b6d7230b295b4a14e9081ef6b8;
 0x2f0d6e5992b021e6c4806e078494d985335a44bd043c27ec8fb96210c733a6c2;
 0x2766137fedd6013d86d9c93d3d8e05f9f7434aa2db80d444371ffeca8d5461b1;
 0x7292a1dc8afc94852dde4bb513ea938096efe1ccc0b60f53baf031e64ce7aeb;
 0xf64f4a028e3419e451380c4fdbdce5b03ff40359207f5bb119c2953433d52d3;
 0x1c2b3c6072f344c7aecbdb388daa18463eab5cb5943d2c57afefab51824b37ea;
 0x12cdca57b94c8aa6c214703d5c456dfc88159401e7f66d1481b00f36dd8386da;
 0x23f505ce933fa0a7486664fb00e5ca54b685208dfb4999dd346e4f26a697b807;
 0x1a84bb82ded6255c6ede37585e4e28fe787d20844df3094fd03c82c6f2cc0b97;
 0x10a6655befac54448cd2e0e7e52a56c178d3fe670b11c58b16109fb759f4efd2;
 0x1a26556d515195ac28f883768f3ea67904ec23f742ce544fba2f854313bbe14f;
 0x23a8eef087916f1ed3df07f7a60d9ce2c2a196d4e9c4231d0e9bc16cd0e3885f;
 0x109e59cbba700e22ee2fa0b85105e52833c7c70bc6d1e918813aa2421a188e3f;
 0x1639528dab1dd1f0e9945b63b79246d3e872c0b1bf637a3b680d98689d997759;
 0x2313e8d331cf2e342e132d2a75ece0e712afad8b0bb32185d91b02493c876796;
 0x3e96a03762ad8273fb05818ab28cfad626ab2c3b01465f8c973b4275f2585f6;
 0xe318637b7f15366c44526d3ae3c0d33bda12c294a4876988c28d09a7f7608b7;
 0x12a1f1dc357dea2da4cd6a6325cd2542289736117d947b3bf02d32045085354f;
 0x117374b586f4692b1682f8d026e9ec7332a43f7b0929bbd51543e21b3303de68;
 0x2bafd7bfc204d9e55b8a53b5641e476ee5fc5113d631736b7bfaa349e618dc24;
 0x8d075c84ba48cf35979ba012c379abd58827f1bb562155b19bca5a09ed0be24;
 0x2b0785443a2d5deee66eeea2b3f8ab317dd37a2358d185dbebadd5a336676243;
 0xaf228650aa58e291b19b511225c1f0dc11c5c982d9b9ae57a3e0ead52667acf;
 0xb4e7e3454f2b9217698632fd31d95a50126394453c89b6945250f8d36ece0a3;
 0xe5f276c143fee910138e17115becf458758ce9bb812d986c7a89b297581ac79;
 0x241341f84a8e31629592e3c2a5a33f5a8f853f610df38842b80967f54eb3d30a;
 0x20606300d8b0643f6c0cb4b4afdb6d3503efedb23d693b1c3705cbe46c27fc62;
 0xbac99db56310e7df296760866502bef6fecd4c90c17ee5dc13a704d17159622;
 0x2171b3c348a2df153f26768e206114b0c4968c3c99e8fb9e7d5d069606398f83;
 0x5fe9945cea71eb802226fe6ca38357eb73e86a76fab2f66d88976c822419fc0;
 0x43abc2f359716a41d6c5661950fa31ad11ced0eff1ade02d43af23dde903bed;
 0x2a1d4d9bd164d4b3dbccc77591b690fc7fa7b07e09fa5b2709887062e44a93c3;
 0x2f14b4a9eff419296a645716b4022cb6fc3a8f3c97cf077fa60140cdc43bd4a5;
 0x865168248c7b18aa9b38c76774d180949daea2d647fce0f839df5d749d8548b;
 0x26123a0ea393450f6fea67f7c11acd63848efd02d07380e364cccae9a6548d4e;
 0x22c637ff2907aba15ccfd3f77be12ed68fc32f8be96698ed7673e881b712d43a;
 0x117fdef07c59ef9c9a770756027104730ee9e6b4398745393804a176268b8a22;
 0x70153c96b148cc400f9553965366f632ac923fa2dddf69d3b6bbe503ce96296;
 0x1e84c7981ee7a8fd3f7f2050c364e921fb310a075a3ae817c00a77f873bc9011;
 0x661ff0cde6e581660f5fc3a181b00353bd0baca8016d6f75fca269508ab8d41;
 0x15beda5d1eb94bee696ef86d0283ddfe69387fbf0c0ed75f851eb55c9c97202a;
 0x1442078783c42616f54d9327f5d43d659713e2c3960eda452dcb89ec3e503359;
 0x260670536ce7e64cd31c97b23d5b96c494f93fb3b1c0a9d1ab7de4dddae8796;
 0x203890235f209fd4c8b66e308a8702e964c52c2f0218ebabe1db114e6a710817;
 0xde457d3fc9a6188d5e936679da8606a114ce54513fd11dea8497d55dd0844d;
 0x825f2c42df2ca6927ef679536bdd0d813af3070a5916b259eace7f21438ee4c;
 0x2fd5b16f89dfebeb30841632b9890f6a5681caa6622d5cc4fe9d3ec8c7a54306;
 0x102fdc4167bfb4a2ae4ed738864e5b5c1f3bfbb46f5c0ca926a791bfbe991c93;
 0xfdbaee0a9aa49649be987495cf7392f4857a04aad29ff25649e0123a513cd8c;
 0x959f84709aa0b385b7d892592d1b6e177bd8a8398ffc6bf07a39b7c0c48a30a;
 0x298668206446e92e47d41144e2f4c5d00eefc03da20a0a2a303e5750ccc6efb9;
 0x1a798081d88ab9e0bdac032702b4486087383d5ff75c0d68d1f8b9b98e9452f4;
 0x23e94711594e7e4c671df90f260ecf63770a76352cdf5f471ddc31e8e0064a24;
 0x2dede69a440649fe17322b8bccf4c1ce84b7e051bb82e99b81407ebedbac7028;
 0x34762b44e47bbafd5ae3d7f8173d2aa0c1da17291370bc2f84659b4c80f483b;
 0x1ea442b0545ba6243d92ea9759a23d73285dd99873e8c3657e6a006a3ce7cc25;
 0x2f53038432ee14c75222813f3380f02ea496d77cb9bdcdad3d3c85ecf9e93a7f;
 0x19d7dff298825937fb7c4c17d23d53119ae96ed3e397b1df7180fd304461b50b;
 0x1e71ffe6e516b57b4822f537f03642b23201e42e5b0cc2239733067ad89023c2;
 0x1dc46d43c2a715d565df9e9485f3dfe928bd53f8795c8b03a1862773a7cf67cf;
 0x2f5469db95cb8cd752a683e4d2870809c1abeb2f84160ff21648151f7b3f0188;
 0x2739dcc2e48fb6db002a2f0d724f52cd1700374816e592104575ed422fa2c6c8;
 0x2fc5655adacfbf8103fc58c8cb5e10dd30e933ecfba2263b087a61f3868a4a4f;
 0x10ff844496fd5a92965630f5a5d51f67e5b6e36a64b2b51c28bf4c7cab403abd;
 0x9b32ad8c1e10c31e9264eeceefd619e8129d9c305303e8ed4dc0cdb522a6ef3;
 0x29db150d367a5323c352474bb55f235720943dfd6cf968c34b73fac9fbd77822;
 0x205e44b540bd357aa8311f36c792e9dd500a3a49de4e367eb885bbf68862b56b;
 0x1d6b67db7f8b7200a82ffbb2bd26b18dbd96a53bd83c5b4264edb905d843feed;
 0x253677541389370bd4233f8067a78a69d6e9e596f59e282697837cc1415d989f;
 0x190842923eb80f2b220cf15e3f8245e4a3786ef2584fe60bc3e45ca34ea43802;
 0xf25ded631f016f91448fe7aa2d0d13dd40f99722c508085e3148774891e7563;
 0x1163738098b1c787b6ecda0692f277db4daf7872effe8a9ec5230d8d988b7bb4;
 0x11600f0ed3eb711dc6d3d9a0d96f4ba3ca2399bf9249786ef73900c9b34e11b4;
 0x1c8dbf5547d551e31a77a502b1e0589341a2fb95daed81c5028fef4e8cc16acf;
 0x2e4a5c1a55787bdc046bee70f4989f8f935de58efa4890d813855631dabc9484;
 0x1d6035c010bbac3bcc45493acef7cdf406e2e876eeb32a8851f6209c385a78c2;
 0x1d6b6fb9c2f187b1ec8373a18d077d3563dc1e4829c73dbc656340ae0c61b2ca;
 0x28480ca625ee02475417fbf4fc651359b034df55b56dc62eceb9a79bdbcedb96;
 0xc004ed9c509fd77f0f9841f39f4fe11ad199277daf0c4359f002bc78d974f14;
 0x219b95798d9b2ed2d230732cbaf4ca57b7d04074319d71a739fca9b4c083bdde;
 0x144f1472c3c7a639ddae611b2eb5be22ee6df25a859a05292ca8307f8618c3f3;
 0x2a688177e96545cb91f9cfbb44a7a14b24376781097e9561314cceec16c78b7b;
 0x24c898e032f33d7e0748a544160206258c97865be5489896c9790acce9251e19;
 0x10abe1e0df0aab96d5d73704068b921ecc1dcff78d605a13727ce9dd8b0eaee8;
 0x2e80ae39eca1770dca35a77a48a991b6dedbf54924618756df064d4b33f2b658;
 0x15e39e8f8a4c7f890d0cc707e28a696ad69df5b48fa37b74049b50791a22c272;
 0x2d5e7a36fe68b184552bbc452beb476a96c7a85fd2196aa9572208a2c02a5632;
 0x1439f040b4c907c5082d330ab439de47b4b99f1179ba46ac20112506a82bc14a;
 0x2ec996b247a0a8c1682d1d0900f049d70ed0b01e169e75ec27d769a160e06c43;
 0x124171096fcb5aaa5d1e793c53867134ff1a49c6a90f2521601c4e07bc3495c;
 0x253ea269e4499bcb0a140b90cf71cdf924843d35eb286dc03059647f7611a1f5;
 0x83c4fab3c20577223fac6f35f8ed59bfe36a4702da514914829bc1ad979217b;
 0x2284f546077f31542f71656a454d08bd85e080db4eccc44490f88dd89d191c41;
 0x2cfe51e414d5d94c3e2a46358c6b1fb5ead77ac14cf7a6f53b460a7058a8393c;
 0x1a85fece3b27ab5241e2a72032ed6e7122414bbee90fb40721011aeb30e944f7;
 0x10829aa85b64078a84d4b8b2173e0cacc3cf1f5e3b8f1e1488c1b416bbdcb8e6;
 0x475de7d88dde94421892d8c48683402431ccac412efcd56fed01bcdda39c5d4;
 0x2e8264478fa612941193367da01857f791b377e2083b3613a5b243cf38e65f9;
 0x13496a43dd1cf974965170a2d81bb480d7161d58b5170f5f134ebe721029ef0b;
 0x259a81e924ed46c5441edc5a5a75e6c207f73c343e6850d7aef9839bf9869832;
 0x2d2ded3e58eb843eb39a3344829143f506dcf9e74ade3b97f2f0dc5d977914e;
 0x65fe7a3cefd7dc775bd96d31e758619ddc371df362370eac98599764bccbc71;
 0x9ce956b584caea51c5b57a33d13773b71ff03c31fae9bc149a97e281554cf81;
 0x1c135b8055f27736b4c89ca09ccb72a37294e06194bacc54deaea9449ac17c58].
(* poseidon_bn128_constants.rs:12142-12394 *)
Definition bn_m15 : list (list Z) := [[0x4523bf1a8f284c6d95b310dec2b54e0e00e59b571dd9d46b6201c18e1b56dfe;
 0x19a92ac6087ab89982fe5650e5e799f91003fd8b45400748d2c25e40f04c578d;
 0x302608d750f16491df5a285f5f7f6a5ce6b554f5dacf0b69d450b24bbb4967d7;
 0x1a3c7daa6b4af5662d0d8407b287674d83eae5b7563405f48def49981c98c424;
 0x2db1c9855ac29acc679367dbf70f08d98894077df2411f91ef68dd90177c1e9b;
 0xf06ee47558f182d810bbcb214a25da7f70a567a0464b348e1b30eca7de99d27;
 0x2166d78d948dafa963381cf1560d00bf3a0a1c288a743344c8643a58daf8cbb3;
 0x2929be9bfe3f93cd34fceae665d96b1de1afb26bcaeea2f4edc454c50cbc4401;
 0x1076d439c67997c37c6c1fda9a37dc2f762dd577946f36fcfdccd7898ec67cd4;
 0x185c9ad0da87cf824624d02bec3ba4665822a0f6b3b25deff3afcc687ce1321d;
 0x2702b1be39e91044fb73926c1104719f4c037aa4151823ceab24f0cec49f4648;
 0xaf71a51cd463b9faeda93803cdc03186c7781845252fdf4e0155709d93dd375;
 0x28667f9c7332073e293c80b98edffae01af4f67b4c52ab45e49db8b30f182d28;
 0x2763c33f5b2d7bc3a23040afbcdaf998bb13254c272a5f8635a12606a59c2e5c;
 0xf81a8d8e08758e8a32aa8292666c4cb6ba3f5f06c4dcf4fc502ff97f03a85a6];
 [0x113ad8b46c3eec20c9965b5a7b2e8a51529871d0401b4de6f63de9e5211623e2;
 0x7930cd5256f8ab77ab92b08bbb5b195a44a2382c66e27514619efb94e649110;
 0x28f8144bdae1b904ead70b3b72c7943037de6b48490efd3177783594edd28b9f;
 0x2474f543d1f2f33b5ef3fbb190651135a59390c8a3661fae2df1d3f14432b608;
 0x21715a84742c02d057ac41f743b166da023228425681950edfaff8581201a097;
 0x1ef0e0c1f0b5f67644c486fecf02238cb7f4fa63a082a3c030daddce65a4b82a;
 0x278e8dac8c56b28a23dba4d90fba91eb947f5092d4a7a9ec7802f61778488e87;
 0xfaf33843e6733437e98995e6f7bfa6feefa73d7410d8585918c347f3cfe92a5;
 0x2ba437d6ae6c588c6b71506c8b508347e634b65cee317af1fbb9cc2a997fc006;
 0x24a6c1919f94aba9db98a5af38feaa5391cda79f9debfaf118670d7927e41db0;
 0x4d80e7ef7e27a2b1397678ac42abcc6e2662c880503e4643fdfbace67273b92;
 0x17f6a3aedb0005a9b0a258e31b8e6e2a48f3f9551cef6812a49075aebb8785f5;
 0x1e62029129492c8bdf8514945950681361591a9f5eedc2449e5f229c85bb97db;
 0x16bae774867656e64fc95f3c249f801f150fd7ee28d195bad9eae43743875278;
 0x10f0172799be23a8fc3f156adfb6c512ba415e35167b563bf7b186fd12a41e57];
 [0x1fc50a16dbdfa1c3b99038f47f81a1c5d1ef6e7b221d4ccca6e821220130e000;
 0x2d8d3d924f2897199e38eafbc7e101d17d7e563488a9f3198060796ae84c1b08;
 0x2aa9aae62cdb852490c650ff9e27c9b33d4cd4020ca66f5e1a6b374e662935bc;
 0x1848a60efc89965073b95773f467666687e38d59be208e8377d31903921057e4;
 0xc893808103549d2030cbfe0004ea6655e24ee71a1f8c1f072d5cf6e17ae2499;
 0xad80718c6e9d1c67b4a37b9e103db32f225fe42a9ba655ff065618b87b82aea;
 0x20d87476f1243f490246f88736ee5fd6d33191f0561271487e9693fcfd7a649;
 0x134b86642ff202388f4fe37356ca4f0ec3805566b7d4d412d8937a359ef9b401;
 0x2c04878b4cb8156e9983d11574ed99dc7562d3fbb1878257abbc68852fdd2680;
 0x1783a45215805ade9d359232120b183db54b43f9a7e8fb8dcd95ba9bbabbba59;
 0xfc96302e8662de23cc5c8c228ac8ac2dcdbfc488a59f4dd41e3f27095f7e195;
 0x24b22e5ce671ce79dff8de16d7cd2bd6375d7ecaa016ecf59cfeb246dac80720;
 0x52c33fce08d4a39fd805156c8affb84349428ba4920cfd2e7902ddcf9b0557f;
 0xf0d475225c99702bba4fd01276102b5cabff7bd4d147c0e3cdee4c07ac31b1;
 0x1183e91b7ab7372f157d4c477691eeaffc9e8863fb2d806570c67f4b1858fc54];
 [0x1214a9d6d7288fe85651a8cb83048c7669c83b5ed82ca2642fff01e852a44b4a;
 0x1c0de2bfeafce164c9838067a8df6340f9d97edf0122333159b714f45c3f13b1;
 0x1e394d80067f0e10baa95de0d99b4e39204a18727d1401b476ec976b5f173a82;
 0x2ca2d8b0a793d90ed318cdb5f697193137155bcfb942d82bef558be5fab359bd;
 0x28427ab007a68c7ab12371f13bd7dba0acf7e97ea6e64ae52d5219210fe8a2b0;
 0x2cffc378d2cec76ba7080b37fc671a96328bcdfc4630fcc2f2133dcf29c70dd1;
 0xcfcaa1d7d382e1fe1fcb950e14df202a08793d7185255b025d562eb8d97544;
 0x1d8724c5e641d96f6e372771b0a776bb742fd3c08e1ae250432246cd3bd01bde;
 0xfee8f9731397974100834649ee87a27ac92be7a3810303460141aafb542a429;
 0x116f239abe820737b5e1e82b2ace3a45cefac489a6bff084e323036f54277108;
 0x2a31cadb918d78b96dcd548b394425a42e2aa7a28a6b63e509261bfae6fa25b3;
 0x240caf6d7ab2f7b6ab3d15efcf3074f5b2142a1e804f25012d988454809e096c;
 0x2224c85f0c0b4093014db1e817d1ff16918f15e0cd231b848a48cf83324c4144;
 0x39a288951a0381e3aaf598ef132853b5d694716c20db87923f0bcf14c914a8;
 0x17620d438499f6c0a66bb577add4cadd66ad39e3377d302bf83d3bba126b2aca];
 [0xd421a7c25af5538788f49475836712af5da156f88c5867568cd958e305026cc;
 0x20e4a28303dd55e5cee332f30eebafbd7932e7b3531d942454c344b8b8c17cde;
 0x20bd028c958d57b79e35218fe34e469ebdaa8e8e714e918d58191f65046b972a;
 0x6ed98a185bb2358f334eb257ae5e3183599c054c1b4e2022569b8368da1abc8;
 0x51deb4b234890e31f5ac8e69a1e532453774ae93a9e9360fe009ed377ae9c36;
 0x21f1f6a630471e32a8b9ac4b7ed4b04c56b96a71ee20a66a5458c6b8d5c6d346;
 0xc39dbdf6e6d24a91a0a45f922c894be252baa127d9ac76909f86dc0bcc68a66;
 0x305614aacdfd4167cd1bfdd8fcdece6892d84d4a65e86e6f7c6349fb75e48b96;
 0xef9ae65eb922605d4260ab2021dfbb4774cd5ffaedc1b79dc681208be6f85c5;
 0x1adccb898e5fe18b5c29a4708c4b112b56d0fa5d299b5edc07d6f5bc00428b8b;
 0x18a2661c03ab9b0d8f7d01091c7e563efc033196747e34139d3f5cc7ac001e9a;
 0xf8aeec74144d00a3ca38bff10bb0f3a8dbff4af6197847db879745aeb57b5ea;
 0x1f53514a97e8b57204e57bd6b1b1d9555f3b50368154154e67c2134fd3151591;
 0x27bcd639c47482d2dc8b6d13da19fb8d63f3d6c875f6fea486da6ff2ee11e107;
 0xe9e8373114ad25af97d28e272fc42d8490373cab582193b874a10428ee6cd21];
 [0x2de8ba83d2b6ab6a711fb9230adee1cba46de8c930c86d266acb8c1cb9684e24;
 0x1bb15ee4d492a8e2cf1b10db1b738c6780066ea8347abe536357a723f6cf57be;
 0x27fa2120431379cbd86205ff114f34dd2dbce13e1c2a0a8e46a1dc27e7b686fd;
 0x1ab527614a37c2ffb00c0fad360abaa447ac1063fb9fc656d0148cdce2d7c372;
 0x170cee2983fa3d3ecef2f806f40eed8d8e135ceff076fc530bbfee876c9e7f1e;
 0x288851770f1a13822251da91c84e123593fae1c9cbce6c4ff2317e70bb658209;
 0x1795384e91bafa554dedf5156cd799e11210ffd2afe817b5c63ad5b85e7fdd06;
 0x2cda26473cfdcd185ba28cfdaa15e7de2359646a0287ebe8b60d702df009010c;
 0x27ab4b40901465ef59007114ecf1fbfab6157c24f402246b86a60397267308f3;
 0x27122781df7bb05f6ae9e14e8e99da5c23dc77cc06108c0ebb061e5d1be93626;
 0x26812acd03db3412cad4bba1aef71bd44b0094d318ace0366c79e729ff0eb2e6;
 0x213d29d4e1b6c01fc0d109ea6169490076d131d8e034b3040f7bd9c3c373ea17;
 0x2132f71ac89892c984a0a73653f2d45222ada34181a9e6dbcea0d63961f934f3;
 0x121395023931f6bb3ef28b6063eb7a2ed7839e083fdb92c1e5593c83edff5f53;
 0x1f665ba33da4ab9d9806caff77ced39c9be254fcc4c5da8f570096111fb109b5];
 [0xea7be82f1cb493b1bbd83ab7ca285bf0a1559ea05c3f59827b3b013d0a91fb2;
 0x2ccf31a572412bb7d9cfa637707853217e7db5550b1cc30a894cdf483a3b63e3;
 0x564651bc1179170e3c97afbc4f493617017b43b213eeed86b9b1bffe521fe86;
 0xbc769cd7b34fcd1b454abff0c00b89b540a619b87c95444679c3ac6be84d450;
 0x244b6b63f8041a5975f4640b18c7d067e4a0627f18751dc906016b8893c35123;
 0x2ff4ee110ee1be62e2715dcd119c95b95413376e88ec3ddc3f06fc9db8c27a94;
 0x2666ec1a67daa7beb057aa0e6e8a10396601a21884372369c012b49aaf849049;
 0x2b0666971fd911529e70ef918d019f44b5c9d77442b6d1866f6e76832d478847;
 0x2bb5bf03cef933e4ee87f511de3985cff0323ab7b718d4cbca3f429addbf3052;
 0x2e37a7440e75b649a0799cffeb7f9dae38fadfc7cab6c5585e4a84f437729d02;
 0x371f0d49346df2d88b9f1ada8ac99dd8125cfa6c30f3738fb9932a853268e;
 0xd0327b593042de04f58e0ff93386d1608d33a86872c1d3e7e089120aac7a4ff;
 0x4dbc4c8de708e59aa4b2116e53944bec97ed42309b4a184561d8f32d291f9c1;
 0x290ed9ae7479f9be13af13f98bf88507e6fdf018710e4859fd2e48cc66ff9b24;
 0x135aa38339bd927dd5064e4d572df55811b226bab54b0acaee511d60aedb02fa];
 [0x1e3ae7e5775d352651d713ebdfcebf9ca8e905cfb792bf7874239450f914c8c5;
 0x1d492c34b245bc12941bb163c5118bfcf85bc4f344042b2031ed8662a1f6ffa;
 0x7333cbd0ff13c8ade1febe72892d9ad435c7b451aa72a8c05a7082395882865;
 0x29ad5236ffbb598a2f8d238703608db7a497a7453ef9d579fbf05be38f8f76f1;
 0x2e72b1b114dfee7e8d7f0161255c6895fa786070ce62d806c45a22d7d98a0a30;
 0x2ad369a84b57f7455ba31064001ca7779d2b4b96b0b4a91f156abec366aab786;
 0x15793f31caea39de315dc5bf5a3662ad5d8e1a12fa1a7280f2efaadafa97adf4;
 0x56c55df543a8d4043a12f409cd2c4bcf43a770f3e38c3fc79ad214b42da834c;
 0x1ee10e28c612d9d6ee72f1274850c3e829be5c06f5bb293280152a5610eb01e3;
 0x29f356dcec3b79523c0589a7046ef0758486828b212146c3f5ce987af3fd719e;
 0x27cea9c43fe0bf1ce9e53c0c026e839d80a7d869136603102cddf63cdf28b975;
 0xbdc078b1edd9cb1fd2c2a01a97bdf7d458648439fac1f28509b41a2dc9e7740;
 0x2565a17a6bc56e87b0b63664319b8a47bf662c1f49e2ec9251be4fdf33d90f4f;
 0x15b085b5eb678f8cedf21bfb30e2d64ae1cbdd7472449ed24e6034101c658868;
 0x22bc96cbe7f8cbca81b29ba7df848dd6599035ff515b6d485550842e1a35a1c2];
 [0x5943e3618a32cf050018a4e2375f4d027b8c14ac82a0de57cbb90c5122a64b4;
 0x1c9b5c2c07fccfd9dc6b3abfe05675fc997eb7b8cbd8d8b4cb7e671615b0ecce;
 0x290a7ae732f4754e0cb91923c9248971932607be2e829163f11612ff8a955b10;
 0x1434ece209d491280c5ae05d7e26cf92d99bb7289a5c1cac09a38ce53b6e03df;
 0x228e7399b0e05802852bdd5d5e09966f03c4c3aff53c683eb2f69e0fcc21c0bb;
 0x24f0fa154fcc6d6459d6c56f711f25e38d57e90be7b8046c9e001815edb41404;
 0x18800bda17a89832fea54f26741d86c6b6fb9e15b02e7bd065533cb5661d2a95;
 0x16b11f24502aa4cc3b0c2562a18a24ab8f986431b244034d3fc29555402b5f4a;
 0x20a9d575fea891302b106439ab03a8a951d8b2ef2b562991946eb2541f1fbad;
 0xf9c05f609ad14debeaff107b95accd60e62662259905105abfafa9e8e08eaea;
 0x95f1db43c827e6f0b9cd4fe929e7b8c78c93fd02ec9e0f10992feb753b4ca07;
 0x26bc00d9cd25124442832d97abd90866d3fa7a401bf38bd95fa7ad526548fea2;
 0x173e80596756cd9aee04bd6dd9dc15e4b8ebbfefe3771d9819bd4d444726f79d;
 0x12a643f4a327acd2454514dd469551e36ab0e3f24ecc3b28a76dc1f38214fe38;
 0x11e1b0af7f5fc9f049877154ae173a1a72c7bc3ba192e438a9d0fa81fdfa4900];
 [0x603755180f66e98215d61e5346b116cc00cfd058274d7d969b3af95e78bb335;
 0x243930ba01dfd3945f2aa02d588922b47c1bef2ff8023a849b4ca66a1bfe98b;
 0x1eb520feac62e4545f4fe7cdb675e36474b8b1fd19e15d7c73a2b1dfbb23fed7;
 0x255dfbdf30553413a1f8f5113d60e98583838d13e11c1ee02b25a387ea00cccf;
 0x18451132581b9adf996c6cae15b92d2e4c09fdc7d6c27b4426f32b5e66a0b723;
 0x7221cad39d9b5f8db705a8723038b92b6baf87284131735eafbecd533dda6d1;
 0x156f6a09e6a81d8eecf4dbf21646bb968b2406786cd1dedd4cc732b7532f7fe0;
 0x18ea0ede9010c7bf0fac361b5b8e7f97c75ed93a13a7ad4a017d920c03c98686;
 0xb73119c98d25eb6de14246b1401bef485c9dc6accedc23494b9526a39d53221;
 0x1c66828552cac1443334ed70b7fd7fb525f907ab64479d117864c92e911986c6;
 0x10a66268dd9a2f368e95507efc2085eeeee8ce977ca1eff5b2e3d94bc342ff58;
 0x1f14aab5a59ad452cf692b123c65873dd80ffc188798a4570eca792b3f2f257e;
 0x1d34655b5776e24701621acb41324cacb50165e019bff1e65f98304f7d822a6;
 0x16a1eedbbea79c5411a639e3bf0e90f6e3f740f141599af8e6a43a2069572f95;
 0x14de448becba6ca0adb21b07455d2c2864c7b85382267026e28f0978822d65ac];
 [0x19817db66fdb8215ecf70476c4044c3f41d78ac5a549c684e35845947dca0b11;
 0x8f328e5e66c0b879b36c233f598bd8578d18e2da9f019f0411731524f42d90b;
 0x259a2a1f046844724cf992aedc2635f6680f55e8a0fdac695ecd05fbc2cbbd19;
 0x67d9294b4072b12c368c2816a53bb16b7e7e2a79979a416f2d02af862abedfb;
 0xe1d7ec2a54b11b36e65d7551e9a875a88ccc7a6c0470e7c26e199670a0859b2;
 0x173b3b349ee888d934aee9c14e889cd7d785d1e3e4f1eb72a5c2e56c48fd54c9;
 0x2977658a10de6e7921ab9e34bcf07bbca61a72549ae57d0c15691bd143d4d2de;
 0x396097733de5a1fa4a548749b73ff7c426f98d9e5ad16920614d337897f6b1f;
 0x2a66defcf489c23eec5079a0ece1c5341027a59e7c592e760184b826d70dba9c;
 0x10f43368c0567f405aa6aafcf367e3e68beff957c4b0cba17c30c62b3f95490c;
 0x25a2a43ee612663dbd61814f2deb06ed005a7414f99825f8be66f542f95a7b2f;
 0x182f1c93c6eb29867b1559c58207a6aeaf40b66eaaf579ca6bd7ca40aaeb7abd;
 0x42eea616d905025147a482eb436a3b75535c9869b76d6cdace118e15c91fb77;
 0x5ce7f592dca2148e198554fd64db8c479f29d23f1f16daf3cb8930d9456e4c5;
 0x1844a81d4fab57aedbb4c4628e2e47fcb2922883eab0b2e1de16f248de4bb902];
 [0x73965f7a9ba8cb33a955d42da55fd7c37a3f0226b029d36dcb3fbea95d642f3;
 0x284a2f083ee32a6663081c800713e0f2395e348dcecc89fc81aa75a5db2ba12b;
 0x8f78e6dc59cd4694c41abbca086569a9083ca8cc800bd9134e4d48ed9d89dc3;
 0x293ca8a06c5f179d938065ea47f80f65ff21969a9429e400aa177ecf6b6ae853;
 0x29b68e652deac818824da0c2a11b408d7a839a2e8576c55bfa5f1335ffc5b93;
 0x9bc3e40bfe5f616fbd520f3894a0fdd37feb29429fd3a5015953171de3a70f9;
 0x284181093e43419789263736e544817111fdcb559a43773f05186608acc542e4;
 0xb9d5a3a957eef251ae9c26e53423f9be6f2efc24bb18756893a9d80e56a0825;
 0x4aa8e91dc30f9ca318fe24718fe595871f7897e92d57f2d87d4b1bcf9a635e1;
 0x253a11c66463a6dcafd8399fca58ba27febbc307d8833c666e0d8df072c5f69f;
 0xe4fd498778c2c76a02d0d91d8f89825856e706f598337dfebbf3ca33397968f;
 0x126ec8c200262c45d1133bf9da5f1e5fd62bcea1e493a080af1bd283ab86f122;
 0xcf030b10a1b4291e576ebabb39c583fea0fa6decfa98cff7a96dc06cb77da51;
 0x110298fe7f2bcfdac0bcdc3affeeb436d7b3a377453ae778fabd37a9acb299a7;
 0xeef04f24ae210ee0a94bc5621574783e49d4d93365a2b3dd069fafd43055452];
 [0x9a550431430846b6694125b5642b00607f36a1a29485361a3cf427da77eccd0;
 0x19772e83816fc2c49b96427c6ad0573347fa49a5df691252592aebc390055a35;
 0x2d8ec6adad3a646843c88cda01285f8f32d29c6b1025cb5421422bf8bdba7fce;
 0x255b96258dc8e1644f1bcaecee773632f25a6ea803cd32a1e01f82573775f6fc;
 0x186e1360041193e12f38099b0e35e767affc3410f6a8dfce9bc75567e39bc402;
 0x29cb31e1afef4f252578aabd76f23a1320aac90d4a0a66c2225e3d94cc48d22f;
 0x200fa20ed1b871313900c01f8b697760d030d8cc0150fdc58e04a0d8a2b344b1;
 0x1a63a589d1710aa705136cb520c2f1c44d778e490c212d4b72e9f1538e5555cf;
 0x133369b3bcc73ee793e869360cd50d8df60fe398ed9d9c0d0d03e669f796e87f;
 0x1e99516c240d42bcaaad9c73f21a46193db8433349203035eea30398f9df7893;
 0x13d84ca7f358aaffb1ee8ebae81c32e01adc01e90d09c9451af36e31af82170e;
 0x5a78464a4b6bbca6e96d839827bfddbaa9d924840aef6555de643df167d4caa;
 0x260ef13ac7e80fd2db3de9eb942edeef3f5e252d4c04508b1e1b130191ad0df6;
 0x14829f09d4beebbe6fc30545047243fb3dab99c62aab7364a7a5b427457a02c0;
 0x1328467c87ba73028921a89333bab97f8b24fcaa72f43837cbcfe5dfb7a945fe];
 [0x68eb4e9d6e0a588b61a6ad501f380da0f009067666c0853d156e33d59c43515;
 0x2dc5900039d4c8523ac379945cb9b58a54e01dbacd67f0c4baee85d353d3fe97;
 0x1b72ac4374e95b7b7d28cd2909507f3006e8352d4af19e47b0b909682a03200e;
 0x1f2a8dcafe79fd0ea22bb1563c3b28b23c5c4d7591d45e06744b3b379d426618;
 0x19294dd22da673470377d671fabdf42cecd37ecbc018386a438706d6106b04a8;
 0x1932bc6bb488b736e0d4bf306d41e622e66c1d685aa4598153054b40f75c0b00;
 0x8d1d68b8437bc980aa7c59d83393b162a0827de74070d2d34b4eaedc17e7e60;
 0x1c0343816b8cecba48519b59b0fb6d4a9bad309ee38311dc3e8cfe8bad75dfbf;
 0x709eab96cc6255f2ae917914f25085025490c423284916e23b608638ccce29c;
 0xc67a06b33cf73882b1c7152d4585b78223d85c77cddc2c7d3594824c5016565;
 0x740c1e9b8ed16e9fae204369c554cfb72007dccfd2530f2e34d544003ae5994;
 0x2a84c424eb58f9c38b4380af38e0458468980988faa1f0d4c6e723845678523;
 0xbc367fd93ceacb599c614aa28068783a5d27eec1fc8fa1765015b76dd82f5cf;
 0x278b58503e0b9014104f8c446bed4c6de575c72d4dd9db3d1866846979aab9b;
 0x791d832e976b66bdaaff450731ff35d998595ab9748f695bb45d2c0fef06930];
 [0x225e00a0da5a7f7496b70d0923a7cf7ff332bff06958cc0f3fad439874f6024d;
 0xcc378b44e58f668b45832fdab4a49372731ef2415c37f40b5ded5594aef3cca;
 0xd7d8273de237ba2d4d5e8051c5bd5e312d298b6726ffbd3af7e732af91dff27;
 0x22ebe0a315e07be4b0928885f52449b011b3967e519e438c424cc0428c35726f;
 0x2ed3cf0214f444d436655e03af8aee2b4d96961eea06e8133bd6e8d3e38234f;
 0xcb6fa0a5e11b9192a51904939d45a05af8055bdea3f379faac29d1309830e85;
 0x39598a1443c009678602b8dd3474f276da5d62425083ec628a1737e8cca3e7c;
 0x1af56e6575123f99c5d7ab7b83770f0fd60fb9f4038c2942644069e3c243793d;
 0xe8d9c0707dc5bf80a2f08c343c69cc659def86630af3141a003acb3d3e90c08;
 0x1f6dd8e85d3597bb6d37b47a1f063122014c888250b38cf8e82e3e5471ef84a9;
 0xcc8f90bab68e6de84845da1899bfc52440bdddb940b208301ae94a95777cb72;
 0xc0dcf2b13552ec55c97166be347ca2f93b07e2a10164096d353fa280c796821;
 0x1f126117a949dff900fa5d111a0ce2661bd9d5444577c491a9951cfb58192d;
 0x138f67fbd9cb91ef5206d48cabb269ac42bd352cf371e43311bccad89acc509e;
 0x11492ba406435f35623906ff45df11c39efb59fff09f501fb893d717e34f9d61]].
(* poseidon_bn128_constants_opt.rs:1668-1847 *)
Definition bn_C15 : list Z := [0x148d9e4542066b125da6d69ff3fb676ebd27e6a38a1ff4281bd639c97af6ffd5;
 0xb60a28805324295fcaf51bb88d9692372cbf4eef1cba8b85cbc059346691a88;
 0x2d38f812ad1d7ac79c32fdd57a56edb861885f20fa4bc6d0d942c2f41e8e4a7d;
 0x25738acd1163580033367fd8f1ee199d7eb3c37891e06bc20e6b476a0357588b;
 0x247f6967fca42689ae8e20b5a7a198d63086549b78c1620a51f5d36824ccf43d;
 0x2e22813077a668b2b75249b8d515a3dcd93502006694245bb087ff0732708b93;
 0x1523ea89be61be47e1c36b0e024068c28c48da74bf7069ab2d77389c83d474f4;
 0x146695ce138230e087b53ef1bf81601f2591dd344a7cb509f138939369e0d1c3;
 0x12d05d9571fa4b4171886d9c2cd44c7d7fc5a4125195e7d28c3c47cb5cb5b7c5;
 0x242721147084d4613543788977111f3fde6c89326a556e35bccd2a2e73cac68b;
 0xfd921ba8395a5dde833e6dba4173385007b38d1af5e3841a345c9a480c9d292;
 0xf0bbdc7a39e5146929f2e1ca9fb4a63550cea8f12109c1d82e601975d581f5d;
 0xd65008588b2ee1a4dee0313b6d4396952d901385f2e1afe6a0a0def765dc2;
 0xaea567be31e1c42ce33f589d903363a482f21c1c3d8fe50fa6df018a2dc7c25;
 0x2fa334757b03dec6be1df758ebe0353317b35316ecfc72934d069f182346bbd;
 0x2180dd9f972b1eb5e8819a843d24f650e8257e7a8ccf6eef3fa3d744b16f073a;
 0x1787a3fd66cb49328100d3574d7070199a6bb88b84df6e9b44afce9798233c4f;
 0xfbf506b6714d64dc8623fc0cf426f918053ae81e5847d3367ae7df02293da8;
 0x14f57bdb3ddc75b65eb0720e27daa09412b30ecf7b115e8162b9e55faf49f5bd;
 0xdab0bef8d2d1adc80dcca581e1891ed800bbf4153eed15ce71ee5e0b0bf940a;
 0x25f6be3a9c5f2a6ff32087b2caa01b3a1b7909811f025196f156319239d359ac;
 0x25b541b96923b17550e137a4a5bc0d544d00c5da7715c6f00bdffb9bc56d0dc7;
 0x2b4ad0860f8c3c432f2a037b0e2f7da7a4a5b3601044ba24a56b5b9a3dbda40e;
 0x7d5817bd123f90a4a3c2d77528fd9366321d8dc69988458cc425581c9643af3;
 0x13fda3b1d02a53b106c4ba4652cd90f466b97acfd136c9a8431f1dce531aa443;
 0x2450fd6b1a17be1ec4638786bd3fca4cca4cd871268eb07b1e5aeeade36fcb44;
 0x1c0753ebf63794a29dfd83eb0d0e76f6d1ead583f72f64c0be39aef9e577a0a1;
 0xf110dc007ad810c0fae508899bed20aa5cc8dc3d8324f0f7bbc3995119daf8c;
 0x30623c2f24a7c6ab307f0e88488a009922fc2b8235fc741526a4d3e6a59228af;
 0x1d895817e78f2f1f18e53130a6ed8bd6e1d189543380f691a969483f0ae3148c;
 0x3abf174d2075102797f61660105cf418ded1fab324bae35d136b17a0254c01d;
 0x237478172f073d15dba9d12cae6433ee71521ac294b54d78eace7dc941b2f82e;
 0x180f820a7408dee73a72ac02f7dcc75f99a2b9f75a9aab82377d373eddca712d;
 0x2a5ebba744ea7a6e8210f483f0b6b61c1feecaa867c8c11aea0488b822772614;
 0x2282d8326c3c12e0f7575e1acc4bd941893732e1e7d3c0bcddd35e366edd5f7e;
 0xeb67d8e687cb2cba01552ecfd4fd7ffc3d5788cb47aa3887a1f2ec3beeb08f3;
 0x176f406cc04bbcc4bbb82c56e4ec20bceea588f1bef8fd757e1e58d47545b77f;
 0x1c4d0cec6c8b22be0f1a3e9e32705a8a221d887ea0bee1bea1a8226608905658;
 0x1e35dec79f5a579a42f82c45b1a191147bcc4e3fd02f45af412eddae08db4ad9;
 0x75c4a33b1289f7923abb46d7a684eeda712004f974ef5715f4e2b504397e9bf;
 0x2f416c15f901818152911089ce2a96018e79a8fb7f311c4c6a4d9ee9f7d8a83e;
 0x7a92367d210292658449ef3d46ec96b982c3448053bffc8d27b17a643f43979;
 0x168799e51ef2e7c7b435a220052e06295f6c08b1e6b0b5122aba31e2d953e44f;
 0x2c422cb4040ce223ae9c21dd7331896b68704c26a8f4ddc877bd0659e75c8c48;
 0x29966fed42c09b35591edb4cac0574441dfcfd4f52bf0cc31b2e624b7eac280a;
 0x26ddc145a94457eaf0283876d4ea7d6bf10b7827bf3a684afb10fac1d172894e;
 0x13a8a30590a2c5d476f60d9e9ea7a4c1783a5fea077af03299b8c389641bf4c2;
 0x21d12e7122c437251656760882eef8f3168c237646f3a58a51c265d8b45184f6;
 0x271a6257306b4337cceea57039d404e1996058c68e71d63ce1329810af2da4ee;
 0x1980478607e68ab7961860e38dc78da21f2e453f89acdf82ea62ad9295d8f625;
 0x260653cfe0ebc0562b54b9599ba00669da343a3cb3a14c64f86149d8510df8aa;
 0x2c4fd7be2751f8b6129d997351088081e60585ff012498424b526483f8372f98;
 0x640c9db6f458697dfe17610b0692908cc7f72c1c0bf5cff33168c4867c22a0e;
 0x925e62b7772164055008f8765b827f251b006f2dd2370535df1a16e872b923c;
 0xaf4d8cd74eaebbf7a29bceedd1dcf0ab0d00f8de6442bb8626e7f04b043f40e;
 0xcf6a34e2cd376d6b000d8b0a5ed004e7cfcad8987f3650095f4d9740afda335;
 0x1e75dc69b7b94f915b925a773280b9b3a2341ab9069eb87c883ac87da102d9e7;
 0x26bd58259c27facfca63e248ab6a130ea9893b53928f3d373a0a197c5c2737e6;
 0x1511b6c19aef08f6e79cbc7282cf4b5d3eb07aad10b9f5d65e005e5433db1130;
 0x26d816f8378615ea31b08673baef673c5151c036a5a34ff11cc0ceaffe4ad982;
 0x1c38d60817c3a646a15d82ede53a8ef821ffbeb2b16c8feabd6fa7ed02e65c2a;
 0x2ab192357923d1198143414d448648ba1f60a917f4806bbc2a4ad3b2617ecbc7;
 0x2920a902ac2c11523c9425ea2fcf9cf430b6e27c0ae9f587dc9bbbeb96536352;
 0xd4e9bfdc6f8dc1a6ee5aba8e5f9f67ef3b83a526012953a99c83edb0ae1994b;
 0x295bf676ef95ef309c1d3f8dedef57582ec317807a72ec10674adcd1b79a1717;
 0x232180e854fede1a3359dc8f1a5e14c3ae7b5186fbb1a3f6a6fd9f5252351812;
 0x2405a43f35d247ffb75de7586ba2287f9b057bb321bd9ce9bed8c89807d67979;
 0x18931b27ff3a9e92903717b2eedae0dfdf33e9cb5f0fb10a35bfa8f3badbcdc2;
 0x1fd6e10af1b3189d42548c7ccb93749c4146adf3997b8d377c095445d90af092;
 0xc4772ff9abefc798f553554cc392284b2a8ac4b043708c183f18bdf6d69be41;
 0x227fd4734e7471641aacf664825d3b15ee10d0283c2dc35364c9b167ccecaad7;
 0x132faeaa250b60ef57f7e0ae17f1799fc9530ba5e6f2baadaf01b089595df9df;
 0x1fe24af9ab6246e0c85104cc31ba59175c60b155647623f893718608efa2047e;
 0x2f376b18215290f25c3fb987cc89569a3f18ac443fff16989678e205871becb2;
 0x2f2fc0ee912aa02875b096e48336411eeeca6f3de85152f51038ca291bc0cb18;
 0x2cad38124d882410c386b4eb1445ffe1c73f7b789a273a9cd266bc232e4c68b0;
 0x52002de9c04553df4716c46a80102ed453be8d5bfd9b2f0ec7c1d3002a7e7b2;
 0x302d680ad3444e026b06cd6e4bf62cf7df234ff9e5a46c48c17c2937507cfccb;
 0x2b3a9dccd38768197abc3b4cb640ab3c01206f49add14d1d705c371c7f705afe;
 0x96a6e47d4345707b5c25e86c8a690268f5e831e6df4d864e1f3fa90f2d8537c;
 0x2e2b005a0a54d0fefacdc8c153e84f5cbb50ebca105fa0f0242343fc4893783c;
 0x11c8ac2a7f796c7852e23e76cdb576cdf35bdaba6918f90cbfe7aa2265554a95;
 0x2c2e66451aadb830f1c91d8554f2e39e4ee19b15709052851f481629bbf12b91;
 0xdb078c9e2f68eb7d8f869554da434b9576f186dd943b1f586b9be61a172f960;
 0x79328f87f73198430e17dcd7613bf651afdc86b514295f7c238d2f267618abd;
 0x57924e8f3e798044d6591af796b74ce96bfeb676de3313eb50e0810136b8b09;
 0x1730b8bb9dd03d8326981225e8e51fb9237e4c03fbdde5f0ee12004339b6b9a5;
 0xd121b54def21112d91a5bc9fed5249f5dfbde7c63bf2aa63d14cb59b0dccefb;
 0x13924c1b5bbe6d5c01944d682370c13cfdfd90f17b55f07b05860713ba9457bf;
 0x1cfaf7ae08968c76279003598eb1f7eb6b76ca3efbaa873f21e3e0ebaa637ce2;
 0x20908d07c87e65c8c66ae29d2ef20f8b8049e304a818e769a3c3c63ee4eee0d2;
 0xd225f408959d91768201fdc03575a68e7a855939852c02cf64e3348fb383d42;
 0x112785d72b09b749a03120b3ed7cf793a99ce5710afd2f07d1eeb39974f03340;
 0x2dc01fd745f8ec43d61a5b355b459750010ec7e6b4a13acdcca627d7f6f6babf;
 0x16f35ad4dc8075f6c173b9588be33839ad67fa5883783b0ae6f0601de726afa4;
 0x1bbc143e6c93e6741dae37037285fa42ef8dae0d6fe3728b9e92e79ea566b277;
 0xdf7e17da597a37884ec03429b49764d9e8cda46fd656a122f8c61d9123d4aba;
 0xd73b0c0a745dd49bcddd632d4e41f57b39c28db722520c24cb3d9ced0d8ab33;
 0x263f950c95141a28873f4ecc0d18c82b89f60e7042cb3e9f128cfc5f03e38580;
 0x195e19715160d996ce7464f95db19bec2c71c02faba0f2c6c5ce0ad748fd3d3c;
 0x1cee7204151b6a47ab8ceffea244d1928621fe2661b5c095d1cc24c1a6579693;
 0x29d7696ce5bb66f2bea6d55ccec4dbd464298d8018135f734d115430cc82c42d;
 0x26c47c18b71c8e81dd025369e12e24ccdfcec6cab974c0f86da98deedeacedc9;
 0xfac9631760c0b7f0824bf81492797db8cb3f5e4918040c4af17a4c042b116e0;
 0x7e7ea789ab2f31184f5a93820b08a4f6bddf02fe83f7c42a6af69a6328de863;
 0x20eb37fc65efcf8d87ab26c7cbd24ce2b597e7d9a73fb6f2b9db3e0775534bc0;
 0x20f4028b63bdfeba4e2dad61f4232d2a584560aeb71bdc2f6c3929a7600d64aa;
 0x60e204b7c08f1784b366a37a86d0d8d90c386989cd167fcfabc8c2741aef9cd;
 0x408cadd2b0c8fc39ccbe8366e16edee16ef6fcb00bca0b843681ed56a6784f;
 0x1722aea32703f506f24c5551e3b591dd24fc4ab9d188c149fd1b75e7b90dd353;
 0x2b056ea316811928d984e2796d56842e444501dbaa8cdcb546af5de36364f4e3;
 0x276f12a02aa48133e660f6e93ceecfa60a529dbb444a4553824b981e3396d169;
 0x1199c8941c5f8f8ed0cb67c02c5e014364ad7f708222ef17e82378e4c155a8cb;
 0x28a3d2a547967bbd877ebb18ed238e91706b259a1723c1e345de5b545b8a943f;
 0x244dde50ec65e0e66cc3bc269ca9689e25a89c5269a4b7fd5137e9ab6b7b1be3;
 0x18dd271a54f6e5ac3aa02025470b4612c9044be00c51b80e347938a528fa9d70;
 0x218e424622d7d41f3362cf743106e890d8d2108695e25d279a2e88beba3db8a2;
 0x1f05c5f5041b178a54143a02e8850a9e94625955af047d9e658e7cde580fcd4c;
 0x191da8c6357930716bc0fc614b80b71ea6b2540d14bcbfcf251086764f3f6e7f;
 0xd54bfbbf8a8cf7c99b0aa8e6a688b964e50e68f2de8ce26038e155ac0632fdc;
 0x22e1e8bb2d7d1216a9814ff5454f064d67a9c56e4bebf7700cfa1b651decf8ef;
 0x1f0fa78dc7e2300fa36abd2a40c858fc10ae1455bc43695d121c187a26dfe7c3;
 0x151c8de5c4d6b41254130c6977f790f13b73f6fe786f47d32d6a0e098dc8ca10;
 0x191451e550240b9f0f15a5f0ebbb360ea9b98c6730e1097fdf6b7b8028266433;
 0x88c58a21c4ac05f1169de675c2c543cdd22bc1dd06c42fcc4eb890bf0e518c6;
 0x1e431a01a34cf72247817b3c5684f042878c6d8f67ebeddd047773744bccdcf3;
 0x8a6ad0a360a0f2558f78abb268a4c7dce19ccecf989a34ad2abbcea4f50986e;
 0x2fa7d3a514d879b93b93049fe276e60716c547d4f290126c15e8b666224acfa3;
 0x2f352d9675da8d7c81494e015133a5b8b4c62020898be4468de2fd81a4c2cef8;
 0xf6ebe0388d424da0c79ac329f4b571cc3fd8d5bae54d596e6382da769c4fa6b;
 0x1fe4cb5bb70a9da24e0f598396e434beba5ed2e9ad539951dc93a38c37fe3fb6;
 0x29f316d8c7f3c8e7929d30849ba99edf66e61a2d414e6960081d0114f45c07bf;
 0x4febefaae3e20b5358213eef06d52c7b7817a4e5bd8db4902d2ffde8868564e;
 0x4d6b864cd130aef3a066bace271902047aa0564eb05701efaf55d1f218eecb2;
 0x159747ffd019c389e54acb68074802edf33332662d5dbbba9b67a3c21dbed46c;
 0x2116bfbf5067716afcba7419b07b3315f0ee9c8ddb034a6e6b5fd2e78793ef3b;
 0x2ba76cc7a25af15695fadb8fd7d436d91635eb3f251b2b46dc317c8f5060c4c4;
 0x238465fd273e538d938139210520a07f2ce3bdf50e381959486dbfd4dd0b35c;
 0x5c340a5328ed50d2b10d24af11e763ccf9d30906e5bfdc2a0f23fa8f23edecf;
 0x279ab61cfe4f25485cea4bb3491598d816d5734e391bd1a3edcbbfee0da1c6ba;
 0x76e2fbd39d4fab2ad6de8d53e70194771528f4ca4018fc56c68b85f041568d3;
 0x75cf8404428a1a38f04accf51f5ea6a7f7d7cf66ee412149c23bf4c4e61fad2;
 0x1b45baff5397fea5757900b2499c0aa66447e5e6372253457b9d2472dfc8622b;
 0x1a39fbeff40b73bbfff7232c26d92db4afe3286cff840d193b4256a66432b09c;
 0x1a4d4e0e68afaa99c0890c322d58e46ebfdfc24808688b64fd23ddef4e70c7f0;
 0x24d619da14e5505a0466ebd24a766f2af1fcc6fe2dc4bb58440f618d8c57a7ab;
 0x274442dd02cb4d494bb38c28a42fc02494ab3eae56e115cb3c65ae4aa728716b;
 0x26a9f2469481a594f9b546553c12df66c0fdd4b4637370cbe695cab374f5f115;
 0x19b6db087b1cc1c4b765e70274236d981d5b022a6cf0d3aabd478eda2f895894;
 0x231b94b5e1f8eda3405c1a9a05024fbb79f8722847c8c4dba6af33b0b5e8d072;
 0x276a571b8b2cf637ae48734c01c30a91890729cb137862d09b0dee2f255c5681;
 0x63d0dc1ce85c55433a780bc6ac9fa8bf4511ce6c37a121b6712cd8905787751;
 0x1b5766499bbbe4410e990a078a5ee8d6ad5c4ba9d0468a056c10e0df4f3af63c;
 0x121b65097837a750d24e9dca2ca61b8ef80e1ef478c3d4f1cbff64d4256da110;
 0x155bdd180e1446723320311ebf6ce1668158921dec0c5d9496888eef28fa8396;
 0x2c8541d4945a6610c164b4a4546b2f3b9bbf6dc9316b5658927b635d8bab8589;
 0x34a08d31b52da90215ae00874307d421ea20c786605ae7fc87d0be172b8c3c4;
 0x12552fe7124ee6d20886a7268d73a94850f06a600448641df55b08e7933077c7;
 0x2d19c9d4694d594c5382702070e7057a9f0c7f7bb2ab83ff684810de0e2106cd;
 0x20a7d7794bdbe939ba166d34ae843e1d84eb4632122b7fca26f4e341b0e28b29;
 0x225c213c0a3c9addf32f0c5bdb33fd6957691135d84757b4c44eeba59469e561;
 0x2eb542a5c77f34c674c1df077e89408f5481f4133e3ba62a4b449cf64f9b2537;
 0x303a003af9c1e54d9d3189920396d0c752c9affe1c17e3fdbaf67b3811fec7ec;
 0x2c42a27e94cb62ffb6c169979d09f39387a9e9f9b6e9df71c9ff4165a8ed5673;
 0xae6ba5ef2e7dd64e3f24af20271927e95859827e9a9d32aa247de70c5af9835;
 0x4c58d44d2b14455273dda0c92739446ed59599cee1a505d0cb3631118845410;
 0x2a5c4931de9f553fe4e020755d8b5c10c12ebc234ddd501d6f45b1b2058373f0;
 0x2fd94eb892152b5ac3b73e6061f3a4f952198f3c330e150d4f44c933e6c8fb38;
 0x1b5395c281e1bd5763201cd1c72a3b5db71a99ffcfcf7db793704c0bb4d53c94;
 0x26d18b9ffcf39ae62f03177f4639f37f569b80500e0bb4553466d67b46342b82;
 0x2c4eb768a6db2db295d215ba0f81dcdcd77e0e34bc123791c03ee7d391812b38;
 0xc2e3f65db73f4058ec7c6cc3c3ee5c49550dc106c35929f0bd2d04590309313;
 0x28f15a4dfe1c74ae128ab27ca3208dffd9313d4e87a759136eee3e194cc925de;
 0x11ecc3e8d929c5be84af974cce44aa80bc74a16f13e9b9627f705e3929fd2119;
 0x239d451ea3e39517351019674cbc2a84c6a7add8fa6080371768859e9a89f275;
 0x2a2a9313720b4adb8e4f5795c3224053b31bf2d6016d9096e56cb87f01f81124;
 0xc0089ad49e3644745a0e3596312b34ba6c0faaf19e362bcb56f4a7974c6db74;
 0x2ee82c31a946f5d71be03b9a041596afe624c9c6a6c4907a8be5dd274c3d1524;
 0x1ae0e9d39c6100a8ded3e7ecc34988b75c5338dc936c91c6f1d95c405c07bbbe;
 0x1f11f75c7d0ac841001b3123c045526e98c203d1a6caa18d635f2f2bfa735738].
(* poseidon_bn128_constants_opt.rs:3501-3753 *)
Definition bn_M15 : list (list Z) := [[0x4523bf1a8f284c6d95b310dec2b54e0e00e59b571dd9d46b6201c18e1b56dfe;
 0x113ad8b46c3eec20c9965b5a7b2e8a51529871d0401b4de6f63de9e5211623e2;
 0x1fc50a16dbdfa1c3b99038f47f81a1c5d1ef6e7b221d4ccca6e821220130e000;
 0x1214a9d6d7288fe85651a8cb83048c7669c83b5ed82ca2642fff01e852a44b4a;
 0xd421a7c25af5538788f49475836712af5da156f88c5867568cd958e305026cc;
 0x2de8ba83d2b6ab6a711fb9230adee1cba46de8c930c86d266acb8c1cb9684e24;
 0xea7be82f1cb493b1bbd83ab7ca285bf0a1559ea05c3f59827b3b013d0a91fb2;
 0x1e3ae7e5775d352651d713ebdfcebf9ca8e905cfb792bf7874239450f914c8c5;
 0x5943e3618a32cf050018a4e2375f4d027b8c14ac82a0de57cbb90c5122a64b4;
 0x603755180f66e98215d61e5346b116cc00cfd058274d7d969b3af95e78bb335;
 0x19817db66fdb8215ecf70476c4044c3f41d78ac5a549c684e35845947dca0b11;
 0x73965f7a9ba8cb33a955d42da55fd7c37a3f0226b029d36dcb3fbea95d642f3;
 0x9a550431430846b6694125b5642b00607f36a1a29485361a3cf427da77eccd0;
 0x68eb4e9d6e0a588b61a6ad501f380da0f009067666c0853d156e33d59c43515;
 0x225e00a0da5a7f7496b70d0923a7cf7ff332bff06958cc0f3fad439874f6024d];
 [0x19a92ac6087ab89982fe5650e5e799f91003fd8b45400748d2c25e40f04c578d;
 0x7930cd5256f8ab77ab92b08bbb5b195a44a2382c66e27514619efb94e649110;
 0x2d8d3d924f2897199e38eafbc7e101d17d7e563488a9f3198060796ae84c1b08;
 0x1c0de2bfeafce164c9838067a8df6340f9d97edf0122333159b714f45c3f13b1;
 0x20e4a28303dd55e5cee332f30eebafbd7932e7b3531d942454c344b8b8c17cde;
 0x1bb15ee4d492a8e2cf1b10db1b738c6780066ea8347abe536357a723f6cf57be;
 0x2ccf31a572412bb7d9cfa637707853217e7db5550b1cc30a894cdf483a3b63e3;
 0x1d492c34b245bc12941bb163c5118bfcf85bc4f344042b2031ed8662a1f6ffa;
 0x1c9b5c2c07fccfd9dc6b3abfe05675fc997eb7b8cbd8d8b4cb7e671615b0ecce;
 0x243930ba01dfd3945f2aa02d588922b47c1bef2ff8023a849b4ca66a1bfe98b;
 0x8f328e5e66c0b879b36c233f598bd8578d18e2da9f019f0411731524f42d90b;
 0x284a2f083ee32a6663081c800713e0f2395e348dcecc89fc81aa75a5db2ba12b;
 0x19772e83816fc2c49b96427c6ad0573347fa49a5df691252592aebc390055a35;
 0x2dc5900039d4c8523ac379945cb9b58a54e01dbacd67f0c4baee85d353d3fe97;
 0xcc378b44e58f668b45832fdab4a49372731ef2415c37f40b5ded5594aef3cca];
 [0x302608d750f16491df5a285f5f7f6a5ce6b554f5dacf0b69d450b24bbb4967d7;
 0x28f8144bdae1b904ead70b3b72c7943037de6b48490efd3177783594edd28b9f;
 0x2aa9aae62cdb852490c650ff9e27c9b33d4cd4020ca66f5e1a6b374e662935bc;
 0x1e394d80067f0e10baa95de0d99b4e39204a18727d1401b476ec976b5f173a82;
 0x20bd028c958d57b79e35218fe34e469ebdaa8e8e714e918d58191f65046b972a;
 0x27fa2120431379cbd86205ff114f34dd2dbce13e1c2a0a8e46a1dc27e7b686fd;
 0x564651bc1179170e3c97afbc4f493617017b43b213eeed86b9b1bffe521fe86;
 0x7333cbd0ff13c8ade1febe72892d9ad435c7b451aa72a8c05a7082395882865;
 0x290a7ae732f4754e0cb91923c9248971932607be2e829163f11612ff8a955b10;
 0x1eb520feac62e4545f4fe7cdb675e36474b8b1fd19e15d7c73a2b1dfbb23fed7;
 0x259a2a1f046844724cf992aedc2635f6680f55e8a0fdac695ecd05fbc2cbbd19;
 0x8f78e6dc59cd4694c41abbca086569a9083ca8cc800bd9134e4d48ed9d89dc3;
 0x2d8ec6adad3a646843c88cda01285f8f32d29c6b1025cb5421422bf8bdba7fce;
 0x1b72ac4374e95b7b7d28cd2909507f3006e8352d4af19e47b0b909682a03200e;
 0xd7d8273de237ba2d4d5e8051c5bd5e312d298b6726ffbd3af7e732af91dff27];
 [0x1a3c7daa6b4af5662d0d8407b287674d83eae5b7563405f48def49981c98c424;
 0x2474f543d1f2f33b5ef3fbb190651135a59390c8a3661fae2df1d3f14432b608;
 0x1848a60efc89965073b95773f467666687e38d59be208e8377d31903921057e4;
 0x2ca2d8b0a793d90ed318cdb5f697193137155bcfb942d82bef558be5fab359bd;
 0x6ed98a185bb2358f334eb257ae5e3183599c054c1b4e2022569b8368da1abc8;
 0x1ab527614a37c2ffb00c0fad360abaa447ac1063fb9fc656d0148cdce2d7c372;
 0xbc769cd7b34fcd1b454abff0c00b89b540a619b87c95444679c3ac6be84d450;
 0x29ad5236ffbb598a2f8d238703608db7a497a7453ef9d579fbf05be38f8f76f1;
 0x1434ece209d491280c5ae05d7e26cf92d99bb7289a5c1cac09a38ce53b6e03df;
 0x255dfbdf30553413a1f8f5113d60e98583838d13e11c1ee02b25a387ea00cccf;
 0x67d9294b4072b12c368c2816a53bb16b7e7e2a79979a416f2d02af862abedfb;
 0x293ca8a06c5f179d938065ea47f80f65ff21969a9429e400aa177ecf6b6ae853;
 0x255b96258dc8e1644f1bcaecee773632f25a6ea803cd32a1e01f82573775f6fc;
 0x1f2a8dcafe79fd0ea22bb1563c3b28b23c5c4d7591d45e06744b3b379d426618;
 0x22ebe0a315e07be4b0928885f52449b011b3967e519e438c424cc0428c35726f];
 [0x2db1c9855ac29acc679367dbf70f08d98894077df2411f91ef68dd90177c1e9b;
 0x21715a84742c02d057ac41f743b166da023228425681950edfaff8581201a097;
 0xc893808103549d2030cbfe0004ea6655e24ee71a1f8c1f072d5cf6e17ae2499;
 0x28427ab007a68c7ab12371f13bd7dba0acf7e97ea6e64ae52d5219210fe8a2b0;
 0x51deb4b234890e31f5ac8e69a1e532453774ae93a9e9360fe009ed377ae9c36;
 0x170cee2983fa3d3ecef2f806f40eed8d8e135ceff076fc530bbfee876c9e7f1e;
 0x244b6b63f8041a5975f4640b18c7d067e4a0627f18751dc906016b8893c35123;
 0x2e72b1b114dfee7e8d7f0161255c6895fa786070ce62d806c45a22d7d98a0a30;
 0x228e7399b0e05802852bdd5d5e09966f03c4c3aff53c683eb2f69e0fcc21c0bb;
 0x18451132581b9adf996c6cae15b92d2e4c09fdc7d6c27b4426f32b5e66a0b723;
 0xe1d7ec2a54b11b36e65d7551e9a875a88ccc7a6c0470e7c26e199670a0859b2;
 0x29b68e652deac818824da0c2a11b408d7a839a2e8576c55bfa5f1335ffc5b93;
 0x186e1360041193e12f38099b0e35e767affc3410f6a8dfce9bc75567e39bc402;
 0x19294dd22da673470377d671fabdf42cecd37ecbc018386a438706d6106b04a8;
 0x2ed3cf0214f444d436655e03af8aee2b4d96961eea06e8133bd6e8d3e38234f];
 [0xf06ee47558f182d810bbcb214a25da7f70a567a0464b348e1b30eca7de99d27;
 0x1ef0e0c1f0b5f67644c486fecf02238cb7f4fa63a082a3c030daddce65a4b82a;
 0xad80718c6e9d1c67b4a37b9e103db32f225fe42a9ba655ff065618b87b82aea;
 0x2cffc378d2cec76ba7080b37fc671a96328bcdfc4630fcc2f2133dcf29c70dd1;
 0x21f1f6a630471e32a8b9ac4b7ed4b04c56b96a71ee20a66a5458c6b8d5c6d346;
 0x288851770f1a13822251da91c84e123593fae1c9cbce6c4ff2317e70bb658209;
 0x2ff4ee110ee1be62e2715dcd119c95b95413376e88ec3ddc3f06fc9db8c27a94;
 0x2ad369a84b57f7455ba31064001ca7779d2b4b96b0b4a91f156abec366aab786;
 0x24f0fa154fcc6d6459d6c56f711f25e38d57e90be7b8046c9e001815edb41404;
 0x7221cad39d9b5f8db705a8723038b92b6baf87284131735eafbecd533dda6d1;
 0x173b3b349ee888d934aee9c14e889cd7d785d1e3e4f1eb72a5c2e56c48fd54c9;
 0x9bc3e40bfe5f616fbd520f3894a0fdd37feb29429fd3a5015953171de3a70f9;
 0x29cb31e1afef4f252578aabd76f23a1320aac90d4a0a66c2225e3d94cc48d22f;
 0x1932bc6bb488b736e0d4bf306d41e622e66c1d685aa4598153054b40f75c0b00;
 0xcb6fa0a5e11b9192a51904939d45a05af8055bdea3f379faac29d1309830e85];
 [0x2166d78d948dafa963381cf1560d00bf3a0a1c288a743344c8643a58daf8cbb3;
 0x278e8dac8c56b28a23dba4d90fba91eb947f5092d4a7a9ec7802f61778488e87;
 0x20d87476f1243f490246f88736ee5fd6d33191f0561271487e9693fcfd7a649;
 0xcfcaa1d7d382e1fe1fcb950e14df202a08793d7185255b025d562eb8d97544;
 0xc39dbdf6e6d24a91a0a45f922c894be252baa127d9ac76909f86dc0bcc68a66;
 0x1795384e91bafa554dedf5156cd799e11210ffd2afe817b5c63ad5b85e7fdd06;
 0x2666ec1a67daa7beb057aa0e6e8a10396601a21884372369c012b49aaf849049;
 0x15793f31caea39de315dc5bf5a3662ad5d8e1a12fa1a7280f2efaadafa97adf4;
 0x18800bda17a89832fea54f26741d86c6b6fb9e15b02e7bd065533cb5661d2a95;
 0x156f6a09e6a81d8eecf4dbf21646bb968b2406786cd1dedd4cc732b7532f7fe0;
 0x2977658a10de6e7921ab9e34bcf07bbca61a72549ae57d0c15691bd143d4d2de;
 0x284181093e43419789263736e544817111fdcb559a43773f05186608acc542e4;
 0x200fa20ed1b871313900c01f8b697760d030d8cc0150fdc58e04a0d8a2b344b1;
 0x8d1d68b8437bc980aa7c59d83393b162a0827de74070d2d34b4eaedc17e7e60;
 0x39598a1443c009678602b8dd3474f276da5d62425083ec628a1737e8cca3e7c];
 [0x2929be9bfe3f93cd34fceae665d96b1de1afb26bcaeea2f4edc454c50cbc4401;
 0xfaf33843e6733437e98995e6f7bfa6feefa73d7410d8585918c347f3cfe92a5;
 0x134b86642ff202388f4fe37356ca4f0ec3805566b7d4d412d8937a359ef9b401;
 0x1d8724c5e641d96f6e372771b0a776bb742fd3c08e1ae250432246cd3bd01bde;
 0x305614aacdfd4167cd1bfdd8fcdece6892d84d4a65e86e6f7c6349fb75e48b96;
 0x2cda26473cfdcd185ba28cfdaa15e7de2359646a0287ebe8b60d702df009010c;
 0x2b0666971fd911529e70ef918d019f44b5c9d77442b6d1866f6e76832d478847;
 0x56c55df543a8d4043a12f409cd2c4bcf43a770f3e38c3fc79ad214b42da834c;
 0x16b11f24502aa4cc3b0c2562a18a24ab8f986431b244034d3fc29555402b5f4a;
 0x18ea0ede9010c7bf0fac361b5b8e7f97c75ed93a13a7ad4a017d920c03c98686;
 0x396097733de5a1fa4a548749b73ff7c426f98d9e5ad16920614d337897f6b1f;
 0xb9d5a3a957eef251ae9c26e53423f9be6f2efc24bb18756893a9d80e56a0825;
 0x1a63a589d1710aa705136cb520c2f1c44d778e490c212d4b72e9f1538e5555cf;
 0x1c0343816b8cecba48519b59b0fb6d4a9bad309ee38311dc3e8cfe8bad75dfbf;
 0x1af56e6575123f99c5d7ab7b83770f0fd60fb9f4038c2942644069e3c243793d];
 [0x1076d439c67997c37c6c1fda9a37dc2f762dd577946f36fcfdccd7898ec67cd4;
 0x2ba437d6ae6c588c6b71506c8b508347e634b65cee317af1fbb9cc2a997fc006;
 0x2c04878b4cb8156e9983d11574ed99dc7562d3fbb1878257abbc68852fdd2680;
 0xfee8f9731397974100834649ee87a27ac92be7a3810303460141aafb542a429;
 0xef9ae65eb922605d4260ab2021dfbb4774cd5ffaedc1b79dc681208be6f85c5;
 0x27ab4b40901465ef59007114ecf1fbfab6157c24f402246b86a60397267308f3;
 0x2bb5bf03cef933e4ee87f511de3985cff0323ab7b718d4cbca3f429addbf3052;
 0x1ee10e28c612d9d6ee72f1274850c3e829be5c06f5bb293280152a5610eb01e3;
 0x20a9d575fea891302b106439ab03a8a951d8b2ef2b562991946eb2541f1fbad;
 0xb73119c98d25eb6de14246b1401bef485c9dc6accedc23494b9526a39d53221;
 0x2a66defcf489c23eec5079a0ece1c5341027a59e7c592e760184b826d70dba9c;
 0x4aa8e91dc30f9ca318fe24718fe595871f7897e92d57f2d87d4b1bcf9a635e1;
 0x133369b3bcc73ee793e869360cd50d8df60fe398ed9d9c0d0d03e669f796e87f;
 0x709eab96cc6255f2ae917914f25085025490c423284916e23b608638ccce29c;
 0xe8d9c0707dc5bf80a2f08c343c69cc659def86630af3141a003acb3d3e90c08];
 [0x185c9ad0da87cf824624d02bec3ba4665822a0f6b3b25deff3afcc687ce1321d;
 0x24a6c1919f94aba9db98a5af38feaa5391cda79f9debfaf118670d7927e41db0;
 0x1783a45215805ade9d359232120b183db54b43f9a7e8fb8dcd95ba9bbabbba59;
 0x116f239abe820737b5e1e82b2ace3a45cefac489a6bff084e323036f54277108;
 0x1adccb898e5fe18b5c29a4708c4b112b56d0fa5d299b5edc07d6f5bc00428b8b;
 0x27122781df7bb05f6ae9e14e8e99da5c23dc77cc06108c0ebb061e5d1be93626;
 0x2e37a7440e75b649a0799cffeb7f9dae38fadfc7cab6c5585e4a84f437729d02;
 0x29f356dcec3b79523c0589a7046ef0758486828b212146c3f5ce987af3fd719e;
 0xf9c05f609ad14debeaff107b95accd60e62662259905105abfafa9e8e08eaea;
 0x1c66828552cac1443334ed70b7fd7fb525f907ab64479d117864c92e911986c6;
 0x10f43368c0567f405aa6aafcf367e3e68beff957c4b0cba17c30c62b3f95490c;
 0x253a11c66463a6dcafd8399fca58ba27febbc307d8833c666e0d8df072c5f69f;
 0x1e99516c240d42bcaaad9c73f21a46193db8433349203035eea30398f9df7893;
 0xc67a06b33cf73882b1c7152d4585b78223d85c77cddc2c7d3594824c5016565;
 0x1f6dd8e85d3597bb6d37b47a1f063122014c888250b38cf8e82e3e5471ef84a9];
 [0x2702b1be39e91044fb73926c1104719f4c037aa4151823ceab24f0cec49f4648;
 0x4d80e7ef7e27a2b1397678ac42abcc6e2662c880503e4643fdfbace67273b92;
 0xfc96302e8662de23cc5c8c228ac8ac2dcdbfc488a59f4dd41e3f27095f7e195;
 0x2a31cadb918d78b96dcd548b394425a42e2aa7a28a6b63e509261bfae6fa25b3;
 0x18a2661c03ab9b0d8f7d01091c7e563efc033196747e34139d3f5cc7ac001e9a;
 0x26812acd03db3412cad4bba1aef71bd44b0094d318ace0366c79e729ff0eb2e6;
 0x371f0d49346df2d88b9f1ada8ac99dd8125cfa6c30f3738fb9932a853268e;
 0x27cea9c43fe0bf1ce9e53c0c026e839d80a7d869136603102cddf63cdf28b975;
 0x95f1db43c827e6f0b9cd4fe929e7b8c78c93fd02ec9e0f10992feb753b4ca07;
 0x10a66268dd9a2f368e95507efc2085eeeee8ce977ca1eff5b2e3d94bc342ff58;
 0x25a2a43ee612663dbd61814f2deb06ed005a7414f99825f8be66f542f95a7b2f;
 0xe4fd498778c2c76a02d0d91d8f89825856e706f598337dfebbf3ca33397968f;
 0x13d84ca7f358aaffb1ee8ebae81c32e01adc01e90d09c9451af36e31af82170e;
 0x740c1e9b8ed16e9fae204369c554cfb72007dccfd2530f2e34d544003ae5994;
 0xcc8f90bab68e6de84845da1899bfc52440bdddb940b208301ae94a95777cb72];
 [0xaf71a51cd463b9faeda93803cdc03186c7781845252fdf4e0155709d93dd375;
 0x17f6a3aedb0005a9b0a258e31b8e6e2a48f3f9551cef6812a49075aebb8785f5;
 0x24b22e5ce671ce79dff8de16d7cd2bd6375d7ecaa016ecf59cfeb246dac80720;
 0x240caf6d7ab2f7b6ab3d15efcf3074f5b2142a1e804f25012d988454809e096c;
 0xf8aeec74144d00a3ca38bff10bb0f3a8dbff4af6197847db879745aeb57b5ea;
 0x213d29d4e1b6c01fc0d109ea6169490076d131d8e034b3040f7bd9c3c373ea17;
 0xd0327b593042de04f58e0ff93386d1608d33a86872c1d3e7e089120aac7a4ff;
 0xbdc078b1edd9cb1fd2c2a01a97bdf7d458648439fac1f28509b41a2dc9e7740;
 0x26bc00d9cd25124442832d97abd90866d3fa7a401bf38bd95fa7ad526548fea2;
 0x1f14aab5a59ad452cf692b123c65873dd80ffc188798a4570eca792b3f2f257e;
 0x182f1c93c6eb29867b1559c58207a6aeaf40b66eaaf579ca6bd7ca40aaeb7abd;
 0x126ec8c200262c45d1133bf9da5f1e5fd62bcea1e493a080af1bd283ab86f122;
 0x5a78464a4b6bbca6e96d839827bfddbaa9d924840aef6555de643df167d4caa;
 0x2a84c424eb58f9c38b4380af38e0458468980988faa1f0d4c6e723845678523;
 0xc0dcf2b13552ec55c97166be347ca2f93b07e2a10164096d353fa280c796821];
 [0x28667f9c7332073e293c80b98edffae01af4f67b4c52ab45e49db8b30f182d28;
 0x1e62029129492c8bdf8514945950681361591a9f5eedc2449e5f229c85bb97db;
 0x52c33fce08d4a39fd805156c8affb84349428ba4920cfd2e7902ddcf9b0557f;
 0x2224c85f0c0b4093014db1e817d1ff16918f15e0cd231b848a48cf83324c4144;
 0x1f53514a97e8b57204e57bd6b1b1d9555f3b50368154154e67c2134fd3151591;
 0x2132f71ac89892c984a0a73653f2d45222ada34181a9e6dbcea0d63961f934f3;
 0x4dbc4c8de708e59aa4b2116e53944bec97ed42309b4a184561d8f32d291f9c1;
 0x2565a17a6bc56e87b0b63664319b8a47bf662c1f49e2ec9251be4fdf33d90f4f;
 0x173e80596756cd9aee04bd6dd9dc15e4b8ebbfefe3771d9819bd4d444726f79d;
 0x1d34655b5776e24701621acb41324cacb50165e019bff1e65f98304f7d822a6;
 0x42eea616d905025147a482eb436a3b75535c9869b76d6cdace118e15c91fb77;
 0xcf030b10a1b4291e576ebabb39c583fea0fa6decfa98cff7a96dc06cb77da51;
 0x260ef13ac7e80fd2db3de9eb942edeef3f5e252d4c04508b1e1b130191ad0df6;
 0xbc367fd93ceacb599c614aa28068783a5d27eec1fc8fa1765015b76dd82f5cf;
 0x1f126117a949dff900fa5d111a0ce2661bd9d5444577c491a9951cfb58192d];
 [0x2763c33f5b2d7bc3a23040afbcdaf998bb13254c272a5f8635a12606a59c2e5c;
 0x16bae774867656e64fc95f3c249f801f150fd7ee28d195bad9eae43743875278;
 0xf0d475225c99702bba4fd01276102b5cabff7bd4d147c0e3cdee4c07ac31b1;
 0x39a288951a0381e3aaf598ef132853b5d694716c20db87923f0bcf14c914a8;
 0x27bcd639c47482d2dc8b6d13da19fb8d63f3d6c875f6fea486da6ff2ee11e107;
 0x121395023931f6bb3ef28b6063eb7a2ed7839e083fdb92c1e5593c83edff5f53;
 0x290ed9ae7479f9be13af13f98bf88507e6fdf018710e4859fd2e48cc66ff9b24;
 0x15b085b5eb678f8cedf21bfb30e2d64ae1cbdd7472449ed24e6034101c658868;
 0x12a643f4a327acd2454514dd469551e36ab0e3f24ecc3b28a76dc1f38214fe38;
 0x16a1eedbbea79c5411a639e3bf0e90f6e3f740f141599af8e6a43a2069572f95;
 0x5ce7f592dca2148e198554fd64db8c479f29d23f1f16daf3cb8930d9456e4c5;
 0x110298fe7f2bcfdac0bcdc3affeeb436d7b3a377453ae778fabd37a9acb299a7;
 0x14829f09d4beebbe6fc30545047243fb3dab99c62aab7364a7a5b427457a02c0;
 0x278b58503e0b9014104f8c446bed4c6de575c72d4dd9db3d1866846979aab9b;
 0x138f67fbd9cb91ef5206d48cabb269ac42bd352cf371e43311bccad89acc509e];
 [0xf81a8d8e08758e8a32aa8292666c4cb6ba3f5f06c4dcf4fc502ff97f03a85a6;
 0x10f0172799be23a8fc3f156adfb6c512ba415e35167b563bf7b186fd12a41e57;
 0x1183e91b7ab7372f157d4c477691eeaffc9e8863fb2d806570c67f4b1858fc54;
 0x17620d438499f6c0a66bb577add4cadd66ad39e3377d302bf83d3bba126b2aca;
 0xe9e8373114ad25af97d28e272fc42d8490373cab582193b874a10428ee6cd21;
 0x1f665ba33da4ab9d9806caff77ced39c9be254fcc4c5da8f570096111fb109b5;
 0x135aa38339bd927dd5064e4d572df55811b226bab54b0acaee511d60aedb02fa;
 0x22bc96cbe7f8cbca81b29ba7df848dd6599035ff515b6d485550842e1a35a1c2;
 0x11e1b0af7f5fc9f049877154ae173a1a72c7bc3ba192e438a9d0fa81fdfa4900;
 0x14de448becba6ca0adb21b07455d2c2864c7b85382267026e28f0978822d65ac;
 0x1844a81d4fab57aedbb4c4628e2e47fcb2922883eab0b2e1de16f248de4bb902;
 0xeef04f24ae210ee0a94bc5621574783e49d4d93365a2b3dd069fafd43055452;
 0x1328467c87ba73028921a89333bab97f8b24fcaa72f43837cbcfe5dfb7a945fe;
 0x791d832e976b66bdaaff450731ff35d998595ab9748f695bb45d2c0fef06930;
 0x11492ba406435f35623906ff45df11c39efb59fff09f501fb893d717e34f9d61]].
(* poseidon_bn128_constants_opt.rs:5623-5875 *)
Definition bn_P15 : list (list Z) := [[0x4523bf1a8f284c6d95b310dec2b54e0e00e59b571dd9d46b6201c18e1b56dfe;
 0x312e3298297ce9b613e755220138a61f6fcb449e9f297bd2ab37fa4b060c4f8;
 0x237ee46d48fc4719f3b0c74d1ce32d25ee1a406c86226b14963597d77d3b26d7;
 0xe643d3d4ee78128b65244451e50daa769353d675b70cd9f3642127c70afc096;
 0x276252adc5f9add05d80d4d975aa6c8506e5f3615ad04dd19b6a8fdf44554816;
 0x40e4596ca95fc409132c1497cce79ce1293bf459cbf2e0b1ceda174d0e53e65;
 0x6efbf7c9bf4c721cb0ebff67730a41eb0d4498251681593f54d16da5cf2e24f;
 0x460e5c59d6292faa4ffea5c4f0f5b618c30291ef6259d2d5bf756df87a5df8f;
 0x136b729f22d1ca74db0f67b12512925ab8597467cedf52e6d289407563cb253b;
 0x28aaa152884edf31944d72dc318424c0da3492c9f7154dc8fbcb6537cd7e06bc;
 0x23fdac37f71f97739b9ac6b9862be4bb4075a31e9d2118c7f4ac5074bd7f2692;
 0x767aa1fbc4ea303a476f04423458ac3f6e45404c9f22c30e2ee5dbd7c9348a1;
 0xcc0452c4e5cd956ef1a3b4ae5bbcaa7be7acd4c2f72d22d65077587a91c0b01;
 0x1ceb88c33c35ed1e6738b9ed039e4ab506bf7ab0f08a7aaf7dab0caf13eb0e68;
 0x12a998baf33d6fbf6fafcf03c462c8a5ef7704b181abf2414b689f9eb08566d1];
 [0x19a92ac6087ab89982fe5650e5e799f91003fd8b45400748d2c25e40f04c578d;
 0x27dc8579136c0e71f75b1cf6f5083dd8354d115bf414dd1fa540e5f39f7afc72;
 0x20428c044d22ee0bcd7a3e6fab424e8b80af5027762db1e96f6580139e2bc093;
 0xd17aad3b6fbd4fd8bae145159eba2a61ac1244b3fb460222167b77139c9da6d;
 0x180d3e114e0939812b91fb0eff3e0b6109043c1d4018d1d2f9cbc79e384618e9;
 0xcf213b1d3f6fe0b137e4524b963bed40993416f8f1b174fe697fd55079f3343;
 0x190b37e8c9b7bd5ee60d0a8537d47a1a377f7a5674c75a99540baee608fd8f25;
 0x3034b01c2fb47a98674d730818419829480394df38d331ade2700d39138a43dc;
 0x6b1dd2a5fd27efc3cd1aceab1969f68e4959b36a0da5ca5b42c10abf0d230a8;
 0x488a359cb7c3cd4063adc6ffe91ae4613f72a681535e35b7b96bc26086bda29;
 0x153a1ae9f00d026c31b3462001a07a114b4276497c8144c42af93d11bb383d0a;
 0x16c499c243fb5cec60a76c3292e05a6217471eacfd3ab2b95b409a367f5a77fe;
 0xec171c476265c4877db3554fa9f482a8d6b647239b89e48a9097f174d5c5b56;
 0x445f4d9f49d4dcb1ae866956c374e1a3cb45419e00f5836b88e5ad16d639eeb;
 0xd9d065a53ec9ea1f2f08c32c30a37cf2b7ad1614e60aaf3b91508a3ffb3b301];
 [0x302608d750f16491df5a285f5f7f6a5ce6b554f5dacf0b69d450b24bbb4967d7;
 0x298a90da4f4bce9de81be6912c6ffb796d04c14432c8c40a105a28b135ae2735;
 0x16065604a60cf2d7e406310a514e428a734b27a86e2def6fedb3f714c1679c58;
 0x1b8dbca850e849940b154d50c6ee570c32444d12c847c2016b35149230395060;
 0x2e93afeb1b3520058245bebe0d269664b12e730fc45bbf46cb66044d57b5bab8;
 0x2eed04ef2e97eeb4738187710d3c3d598e60a7b9e6484d4b4a2f0983d2970945;
 0x1b76f377622072daa3d1619b1bdc692333d5345b67f36f430cf516ef16eda936;
 0xa20b0fc9107098578122aeef4dd1bbb7ef353e400ff70d382ee8abb7c481e01;
 0x8e34a0ccd379ed1c637f8272a3a4cad64937438043f4ba7f5e5f5b0adf687a1;
 0x1d48b6efe372666fc8519de0f01a8e5d360708e47dadce1fc01000e7dd4527c4;
 0x260f8a62766f0e259aaf537577b1a99d50bc02074e10f624e91c36f3bad5491b;
 0x27ffca574c26cda5aa09d071c5894e0ed95cd93036e2193e84b4e5ea7df06b0;
 0x2d723e71184abac895077f84c811f4135f4d7acf5ab28f532990182a43873833;
 0x278e3dfc235e7b04caeb106a14460dd6a7471b6f19d441c1f738aa625c45f28d;
 0x20fd0cdac44c5b5c22cea47ac2b0d7565819a0e8110932f0e04c300eb32b223f];
 [0x1a3c7daa6b4af5662d0d8407b287674d83eae5b7563405f48def49981c98c424;
 0x2ff508346df0d408d3d1109b26123bde5c4558bdab26d9cf3c6374a6f9291864;
 0x13674b5d0d749caf2d93724d234c9a3a7b9aa8ced4f854b853c07a6d575b7ff2;
 0x526e69c73070647cd5d45609e6f557bbb3b4cd4ced38e3982fe8fa217a5c22c;
 0x26ea6a7932de98e85daf38c6a9a75cc6c016aa9eb31e78d7b5af1ef3936cdf54;
 0x2ea7c830de80ac304f4a4342818cac408fbe27c811b25a9e6c1c2cd7a3a63ec4;
 0x213b177aacada821231c6bc2090ff354d629cc89617d52a340673497b0c9b294;
 0x178cdf015d8bc8ed5294bb31b6299345cd5a33e5ea30e4f03f4b6bbb2aabb2e3;
 0x28548c8bb786f47791c98c20d6921d39d82a2c98681cd10f1805d4b3384605c5;
 0x2a7d9ae2a915561a62c884f5ac71ef11815fa7345f61466abaae9bb172382462;
 0x131105c4381b5f577a61629a53e074ae66a120d7ef9bb5c27ac675bf90676156;
 0x185c152024c4fd6afd5f7f6f95134da079ce1614a9f4e03f2043914281041384;
 0x1ca9f045f715d29458cb1fbdc8d84a668938b789bb4e9837cc7a2dccf90cc569;
 0x1f22be26d5167ef4bb00117f8e6ea1f2866e602a986289bba484ba2f1e875591;
 0x4bbff61811db870b42bcce9be11642d53a88243f2f8271b60897565ba6a6a60];
 [0x2db1c9855ac29acc679367dbf70f08d98894077df2411f91ef68dd90177c1e9b;
 0x1347afe5529f60fe7a738494455139994ef976212daeb0289737fc17d67bdc30;
 0x17832a57483ab46808e944495407d84b427a250d2f4d8adedb0da2bf8b00f21c;
 0x18aff8fe5a1798ba94632917ad3e19d4d8eccb81195395d89b7d631cf2962663;
 0xa3ebcde6fceb125aee70284064b2f3524ba816c151fb6245e07cc33c13d97f5;
 0x17230666ed67a7740bdd76a96b3ebcd29eca4301e827b218ea24a4a56cf11eae;
 0x2efaf6a0e622f10e54e08e0e0acd1e4263ccde6164d805fc5317f9eb83418c0f;
 0x2f1240e45287424dd94a661e56b89f0e5a11b9e15fcf896d04b76404ee53148d;
 0x2bab506569e55b5d04ce7afa2434a095d3b43f0329b74519f88c1d63c705ec41;
 0x280c7256bd6775f497c95849ff56a53a8cd9b01a60205fd41702a10532a7ceb1;
 0x3de768cf69223497fd2ea181708751bcb42a0e8cf3f8580ba7d0a86fff12881;
 0xaceb3f030450738e2cd5f1b0177872a632cce047ce9861db835554b1bd9de83;
 0x14b711d1cabba4675d177f17d623824b3a28229a551f320b3355a9e3f9608c9f;
 0x24bb09e90e64f5c63d53580b531079784e4d59d287c933d613aeeaf59add06be;
 0x213b22a447492a79d3152f0ed7ff35ed7f580591cb2dfb8d91ee9dbd67ba64ad];
 [0xf06ee47558f182d810bbcb214a25da7f70a567a0464b348e1b30eca7de99d27;
 0xfcd2ff5c8f0bd2947b6fbf00d0b81ebfb76064cd51bebbcdfdb6209e6634bb9;
 0x302b344f13b30ca0578bd6eb52afb66c031b33a229b18a61a98395a95cc4a77d;
 0x22b451ac56f38245014eee401568e5cc508bdec222355ab1f7194493ad7f083;
 0x1b3bf735cc8f4d38d737f7fb6d87d70646bcf2fdaaaa2a02fbd0e7585d24f37b;
 0x1df0e1d73bee56ad584211352e7cabb7c748edf107cd8c5750c6293ef7fa1d87;
 0x994b0fad98bd40de62c6a239fd21624a196ff95d2bbfa22e0416be5694d67ea;
 0x4cd761f316ecc1b03668f55b6a6a9a82ba2fd797ecbd57013176ac85d8517ec;
 0x2398afa197096947d567f16acabed2956bb62acd9a5d898be5f7e154b5ce331a;
 0x1f63018449c6f982d1364b473737e009d0004837e9b417d100aeaef53e5571bf;
 0x1b531701fd6b02b680ac96125396ebf4df7f83acf2edfe833893eeb5f2c3a848;
 0x1412ef160245006ba8ffedae4e0a1aaffb7da57e70128959a5b5e1503b4e4087;
 0x3ea51d0d3eae6f814251d648892fe5985019645a2d39bb4d4928e6b4dd9d702;
 0x181a8292b083644b0357e5c5b0fdd3162877cd14d98c3ae8e4e01fa39b19f468;
 0x1aaeca8c009c0588d25f56bb9457a2cb260b14e88c8e81389479edbd174d73ce];
 [0x2166d78d948dafa963381cf1560d00bf3a0a1c288a743344c8643a58daf8cbb3;
 0x2fd8655505991d7319eaca4c4b736ee81976b7b325c494ab80c69db132e55196;
 0x14b1c418f3c123d91e084f3867dd62b9c73866a494c0646054f7d152824cb0b7;
 0x29e7183a40f1812fd9e690cc6991f46516c6a11b6d63dfb275bdf45c2e830daf;
 0x2d6e071c9a8c12592824b246bc5024f68d7f15780b8e81cb917032ea3448c77c;
 0x2bcd6ecd21d028a8af782686b423a5491be09d311e8b8b311a76c6fa3b6e846b;
 0x2995eda96f028f0d823d390a39a08cec8844eb9ce6c8e081c573263505dbe1c;
 0x190c2382ceb77e73d72488efff7a47394c9eabaa55e913b3876f5c7425e5072;
 0x1cb68d0b5a7d1e5ec01d0604e9ada4e8b0e5d657e0c3a4b981d9a89585b5b1e4;
 0x17258254d8e0d6f925e7c0185f2098d534afb0760706557c11cc93481dd34dc;
 0x559f237de62143ce58c3f3ffc6fd45cba5c2cc03d7a5b004324a2673ff6d5b6;
 0x2d1bae8c0c7b65e609125c9900ed01b4fee0b246e1d5b40f26a321cfe962044c;
 0xbb07c4601eda15ffa0c7ed3e9b5a7331deae9260915c930d39745da694ded96;
 0x29a3328fef53e260a43f8fde8842280d1b74ed96c3233c5058fcf5748459fc26;
 0x2694a19e4af7c2b87a94dbccdd1b3ac611b1373131cd5a9d70bc7837d8f820a2];
 [0x2929be9bfe3f93cd34fceae665d96b1de1afb26bcaeea2f4edc454c50cbc4401;
 0x19edbb7a983fcd768fb267d9c4a1fea3ce0b2a2b9b443f0aaa46f06e589d14b6;
 0x2c1ddb439b10a092b3971318cad5b08debe8dff603bef4532577c495be1a724e;
 0x28449718fd137470b9cf97b815c2140dd1c972ba998e2fe4822b7c0b33bbdfdc;
 0x1f0655560b2334547cb948d9d6b9b5907c788a38ef864ae0673a78094fe7ee7b;
 0x136fa4ab79c28e0be9bb475e8d02fe991a4c3e1963f8f02bd99fc08feb8af068;
 0x1145dc67ca067f540d071fef09cbb91e1d3deb8202530be3829f4a74b97c83a;
 0x2befa2b6dee51479054fd8dd18588a47a402dd5c3c4edca0c6c5fe3cac3058a5;
 0x1589963f1ad9685037a5090e0a726b46f0d68e01b41fff4e51d7a7ee3ca0384e;
 0x2e23caeb146870890855c6e35016e8fbc54757333d84d986487193341a6942b6;
 0x5749c39afeb687fbf56b6749a6d2422caa3b4a4a98b702a4958b7e4ecb2d37f;
 0x178880d1f6ff2f9b8e1ac338c92a0c8f92803e7f4c277c589d8f4d96102bd7d8;
 0x2458edb63177cd46b51ff3f5054376a76640b495d598e472877d4efb647a629f;
 0x15ac4c506f0e4516834191a3a6aa8cda30a2b3882ddc8d063ec7a9c38c4dc014;
 0x24a5f8b16d150a9683e69c3ae603931192560079eb25d141ff7c2cbaab4dc9c3];
 [0x1076d439c67997c37c6c1fda9a37dc2f762dd577946f36fcfdccd7898ec67cd4;
 0x2d9c1650b528398e8d52dbc23335384e54aee2432d635c70a02d96243ca0b26f;
 0x1b2c5206d50be044598c5897e0b4b0221bd37b510a437fe5a1b4c1c69c601b6d;
 0x2edd1fa77896a64dbbfced0977e08337ee4bf613f76e8a2ce26414548b231653;
 0xcbb908762517b41e306b6909833d5a107634426f22973fe83f00b0e17f13296;
 0x24cbb3c94a026a76c045e4c6edfbb1367d256acf26d02cc09412eda7f59a7ecb;
 0xa0bd0ea059162db49db00cb2a940d57b4a174de0f3aa95507bbf8bddfe17b1;
 0x1b2b047e9e413d748553f99dd8af9b25efcc5e22d45fe891dd28f8fbc2fb5301;
 0xcb96ace8a27b43f9e6227f6712da13e1fdcf8f3f9908a3a1c26a35a05b14922;
 0x29ac01ae36569271195fe075de8ddfb4380c3a02d43d7342a1fb5117b8de2a53;
 0x42ebef9c6a4cdbd7c6cb04d45d2e0c2aaa80deaf78bc1f58ef40906cf3d0210;
 0x2e38bf07c16b3203bdbc7746fe5f9179277cca8363c860155d140ec63673791;
 0x207e9157c54acea4ef46af721cd9b2f57447ed4e87be8933f1d0b6d814d6ff2;
 0x167fda86032760fe696b4920c81f53d843f93d6dd536f230d2004eb414bffadf;
 0xfdd5ddada0b045a445aa344bc61b1ac05142e1b5641aeb7e767de15abbc9bf5];
 [0x185c9ad0da87cf824624d02bec3ba4665822a0f6b3b25deff3afcc687ce1321d;
 0x99fe609dce91a41f172017be2754fe99ebf6c15cc57f31bb6f5b7d807b1f7ab;
 0xd8b8636d4598fdf5326235d176c94628e61b4e7c82e78b4e564850ca2b2375a;
 0xd65ab8a42892dbf60587c701d4ee79885301867045a954e709a0b39a96e3432;
 0x1ff952bebf30d706276910172a3cdfcafb099480002dd0fa8c68288188ffb47;
 0x1b317bd89d4ff133f75ab4d3d0b76a79ae01b0dff996cf34a725196ce703c17e;
 0x124794d78885d5936bd03ff734b5c1adac8a4a596ad9f82102c00d3a684dd7c8;
 0x24ffd623daab9fe13588a1c00b7f8c8f1ca8caa530a1c7131b466d950f2518ca;
 0x2b38ad1a7b652e9f8bf0ef32be28b745c099922eb755a34186ac9090567d8bd2;
 0x19babc734091a3be933427e66c377144245e7db110c6a2baa986003947a240ca;
 0xd0289a40cf02926cbcb2747a0e1c1518e9c4f704df6aea14276211c24086080;
 0x28bd66c5e1338f9704ff07003bfc744bccc39f7ce6c8ab5a577dc903cd264016;
 0x170f77a7b3b9caeaf5659fce45eada32edab843510f0c1c1918e78d0f6f250f3;
 0x4bf7c50eb8083a1b1aed2f2eb1e3e6ac6dac94088c526643d43fc4ffd6750bd;
 0x2cacaf80e8db29ba80807838954a59a587b839dae77fae26c3766144af1c1731];
 [0x2702b1be39e91044fb73926c1104719f4c037aa4151823ceab24f0cec49f4648;
 0x13b4dec836bd9ccf38a503e625ed8e236c54e696c74637ae6a3686a805695912;
 0x1715f73ecf73e36f8e513b1cc9ab6d82c38edc2000876f5d1bae037be5c99715;
 0x133105b55e6c880ddfdf28747478b9cee5fda98c7ebb0dda7501a2798386f9f2;
 0x2c728d02ad11c999b2b9b9ea9e57d496572871e774331ae56374f238082b27ad;
 0x23ef277dfa1c0e0d94bc61cb2e8bbdcea30f4d4024531391a4c3e9cab4543b3b;
 0x16431ad5871bcae4168c2b861ef4b0b01935d119758db9aae06c00bd30db4df8;
 0x28db93b12307f5bee8a6c0b7bcca8b2305b688020740d4345fae2d04ed2505dd;
 0x21b0ef1e524d8d9ebbfc6c2c749d0ec90fae708de520385ea8bf0428508c5d5b;
 0x19d13c633e260305a71528af4eaa906ca4427977dc0c747c8a6a4503fef43e8c;
 0x23d809de14b02c1069c3e14dff538b910e484afeff400b2c1d24fb0e0099cbef;
 0x13fcf2fab4b4b66a25dac0cd517fec58f5ac1850d867be3be4aeb9854eb30efb;
 0x161967aef1a7f7907817e10adad374693d3d1f981ec444384c4db438195d4daf;
 0x1694d5ab473f9de3701a254240a02a4743ed5291b9208af4956404ddb30a4380;
 0x1c710c033318dcb32177032074580a3504f248668c7c53de567b4830f74c9ea8];
 [0xaf71a51cd463b9faeda93803cdc03186c7781845252fdf4e0155709d93dd375;
 0x5fc3b1799e5b191257c7a3bc75e9fa97b164f3f4edda6ea6649c83267be51a5;
 0x1c4497521275cd86c918551760f4d35becefa8ed08036c9c18d83815a9fc7f8c;
 0x1c65c1b912286c5b2274387fa7965d6b2843b5b01b806bbfceb590da531c68eb;
 0x29d4202e4558503b0449242495fd9ad2381705256affbba80117b4c2287175f3;
 0x2933124ced84942c7077b2ac393d14464d517c7d8f1e340694ed5f1acbdff129;
 0xbd580f80ea79136a9b520cea04461da846d9f23e62277f13d6b3aa6ab108ad1;
 0x57b88d83808d3675ba199bfc5780633adfaa44c9b1e32463d66b79e1c6dff3a;
 0x3a6c87ee34cdae1ddd7982cd318362e1a278dc9cdf1cd1dd03b6c36aff836;
 0x22692fb680511799b8ceec96e7ca0e1cd21de90f94856acf334ffbe2fc262053;
 0x1d85033ba0c5dd804c5237c31ab8b09684c635b8b7578c50c246b15314926871;
 0x2b52e9a0a9a535ae05d79b8b555d461f148db269f49e38dd8ec6f8b8da106aa3;
 0x2773fcd9cd996f38297b95daab22c1e79f179f4c79fd4bf6f4abf8725ecd5032;
 0x18ad7311ad63af100808f64bdc63392bfaa0a3881ab03c3157ca8140868a70e1;
 0x19b88372c544a69321b273cc62a95b006931a64222cab4536e797e578a56305f];
 [0x28667f9c7332073e293c80b98edffae01af4f67b4c52ab45e49db8b30f182d28;
 0x1d0cea849dc7409b3b26de35715b32db618691bc123cd9c4c5e6f40b4a1e49bf;
 0x161556e03e94c7156607cba64c0bb7fa00bcaa126df8afb5d42976c03b7d5e0d;
 0x419c20a2ef9d70e930629591eae4c63276c5d79d6948e98f2c37acc29f1a4aa;
 0x1d4a3584e3933abffe0977179b8c112f2cf08e409d33362df4775d1373f4d366;
 0x104bd1b4c028b287ac3fea1ecdcbabdfa6a065e9772791c3de84d945542fc206;
 0x267ef84e628bff8a9a85df724e4c32cbd3237d91bd65c43618d86502032a3694;
 0x2d361efa8fc65b03d45507cfb53549b3b26a84ac50b3593dbc052806ecf59fec;
 0x1285c484100d70c992f6b6953a9955f56957e9a17641679bdfd388b6bf60ea42;
 0xe1a46a527394539c39e9f1e4426d3188c0d9077021790734ec0126d0828fbc7;
 0xef206f21658db03fc8d5d6be5b18374247aee43b3f29b430a6fed7fa5102a84;
 0x2ac3db07d831b461f38204aa0454b1edfc1a0de5b7a6e15e49c63bc7140c3327;
 0xeeadf9b5fd85f9405991af7f4cb2bda816e5aca76103b34b891502f921d6096;
 0x2931d38792a3769da52491346c7c6f8f106c2735ef2a1ca03725396983a0049b;
 0x131154cd6dcbb9b469cd6860b861699845abcc41f428331b1d2beebba8ceb767];
 [0x2763c33f5b2d7bc3a23040afbcdaf998bb13254c272a5f8635a12606a59c2e5c;
 0x27ade810ab16b1c9d9b363d48e397adfc79af3a4836ed63c650053ca057a03c0;
 0x177d3d44dd549944ff5772d4742603e163124583cfa4b673ccf1a25454ea3be2;
 0x2c0de2ff6c43c1d034459dc8458237d808fb0ed445eae2cf7e972c83f006995;
 0x27ac47846175fcaa604d687cd2ed41f2ca52905b2eefa79eaa8583ebae76291;
 0x165a3778b89cc7da792542f4c9a6dba92b85175a60d3661beb77852b238629b3;
 0x27e08a80dc448a0ea08c79c9198e57512968df40d45f08c26ac8242d126aedc0;
 0x1fd804ca6b5d2a3cc76ae1f125a0bee456764db7a553f48bb47f468f3c57a95a;
 0x174de7ca0ebe6a1290ac6a8076d51b85fe8fb4022da95a59a6e9f1fc2fbb2efb;
 0xf3deafe2fe6fbae9417eb6b144885051e5d1642e49b37469d39a6bd6cbbdbbb;
 0xecfff476860b104100ab4d0dc92d93b993024a1c0d6d50b339243e9ae67ccbb;
 0x2cee2efaf90a0e74febcd521cb5fc61304ada5f8760adc044cb684f341b646c7;
 0x140214189bf9a4001311fb36b9e5d27a3f3ceba32a457135a3c66d76e8403553;
 0x2a90f5ad074f3e239345c3d75b7081804b34fdfc2fb9f720a6448818946ee976;
 0x1c373710856290660f38b96ad9baaba487a10183260e1d06f9b9935d36e9b0b9];
 [0xf81a8d8e08758e8a32aa8292666c4cb6ba3f5f06c4dcf4fc502ff97f03a85a6;
 0xc3bf8b042a0fc9b018e64d500484eeccc8086ec911012ee19a8e94c97b1f8ba;
 0x10539e3badcbe0386b58327fa5ec50e92d483bcb819b41b21dd7c54eda76a99c;
 0x308a3fa0a2d7ab2ef746509f2fb76d1a5db994586a54e9d109448f18b281b31;
 0x3ae04f50079403a7c6f13c02d0ecbbce7631eeeb2f9f284dc7c2a52fbff4770;
 0x6bf4105aeb7839b9deb71934169cc975451f8d76f834499b281eb6cd69c071f;
 0x28cd5b5220315f32a404bf919a9cd01a3082f5cf1ed6e92dd79a323bfc62df5;
 0xdb2421285ea7f5979122022c62e752e1b15c491cca462b4e71b7bb0661990cb;
 0x200d26a5d00a2c154aa75036fc4e24885f7d8e3ecdfa19beb7cc15767eb2de8b;
 0x1a1c643b8d0510676c8afea7a4c4af98432406731046ca882a497b29a7c61777;
 0x1e80c6db7632f6d64766cce10b56d0762622eba0de31b6271e95ac94cec6ef32;
 0x16c8f7d85e411d0f9ba685f0fb815c6ff517ab5463c74bb9984dfdeab8299477;
 0x20830e9933ab9c82b1d99369207399eb347fecd8d8ba430b5925038cc3295055;
 0x256a4d8167c0f602f9f3b663dbde4a7cd3d47353587b017f4f03627650b813ff;
 0x11139f7a6884d0c2efc32997248db307bbc0cba48037fc518478e9634fcc745e]].
(* poseidon_bn128_constants_opt.rs:18838-20577 *)
Definition bn_S15 : list Z := [0x4523bf1a8f284c6d95b310dec2b54e0e00e59b571dd9d46b6201c18e1b56dfe;
 0xd4e118218c553f4fd17f1dbb39ba942efd76cd18298bd6b72e1fde271c74372;
 0x1c9814a36ea57e27bd838375e1c1a562dcd2af6a66aad460bfc8afcf3d63ab8b;
 0x1c573e2904e49c6abed20981459d41c560544306978535d6becd7106ed3e41fb;
 0x9e39b302efe7ebc4307cd009e6bd6f7b5128a23298b11eb8e73047cf2f2e920;
 0x1fc427692601beee8d5f6bffaa3faa89af61a2ce7a048f9a596cf2c38ac2cfd7;
 0x1e5b7cbf92351abd6a71a235d9d2ba54bebc40e693a66f3b893174ccac29766d;
 0x2ee69d018063e4752c402c2255b267a05e49736814f2c9b7247240d61e8b684b;
 0x1eaea919368dbdf57be4a55db999baf940ba81052b4e4d5b8e7e16253274f5a;
 0x297f770923ed719ff3167e17564126bc6dda16c8cfd27aad29dfa7a466038453;
 0x13a94e1e1ffd11c4a28c86290a71162f82c03ea2634b67d98c1a5c1d06912186;
 0x19cea28494b1210a4098ac0e79d99fb546c2c3588f3cfe4a068359bb6082e56e;
 0x13841448d03b83eea61935f4d495503643436e90a8efa58be47c85e581b050b7;
 0x2df272af26c5aa5407188de71beb7cdfcf870c778b2093cae868000a2dbfaccd;
 0x29fe73f14e2420c982548ec713b85e374c1d8a43c2bc2ddb6302bef9fb2b6e24;
 0x9070c4406fbd360eca9c300edbd0a65fe8f59b876c18ae13bde14e3330e3175;
 0x2c82ea6755166fd89b688200788ba82d29734ca1b04494d0643b8689ab0b7cc2;
 0x26e76b10c0dd0dde0a57f9b731be061ae57c1d964e2e525081e1fa6084632b57;
 0x277298f3554969bc6937d1b5d5fdc5821b3c809206a3930ec894caf9a37240bd;
 0x287e53a89a23bf624bf6613a821ee5d502838605198c699cdb6ae5d274bb8453;
 0x2e9f85b46415dab53d2c1820226d4e7117e6cc96b7ddffa9f6a96cc697256255;
 0x17fcc4d649ce2696bb0e00460172bce45e5deb8c57904e5ca0d056c9df3e5297;
 0x2c971b630f9a4bca7a950159ff4411578bb39eedee8d9f0171b61ef7febbff4a;
 0x9b526beea2b32c93c9205ce33c6dd79824ee0123e0ee8309814432299a9756c;
 0xc8311c2fe1acce872212bc73164132f8fc89039b4b297090ef07e1997704279;
 0x2ea4d48161c13add4b1dc83b3666ef388ada7a353f3da4c8053efafdd1742bcb;
 0x447cfb281dd95e5bcf7a195bc52e08d78aed9e64cc9d7973873d06a42b8964a;
 0x2828d9d20b414b800a028afa5e61ec4362ada01cbd66f3a4e018f941a9edc227;
 0xf37dee2a8dc76e8cccbcfc527cd8c3383032e1f3f5065e39d2aa70b8fed775a;
 0x4523bf1a8f284c6d95b310dec2b54e0e00e59b571dd9d46b6201c18e1b56dfe;
 0x2ab166f28cfdbcfc32e51fc1db9264b527e40c696357cbdfa6bf90bf09fb97fc;
 0x2e156785cef17b7d942ced8e2ee15ce4bbe2ba73c0e55bd50eb898a1bedcf3c0;
 0xd4641251d71b781208156ca3680d6a5676f749b7588d5db0464c76ab985a43a;
 0xce5cf743d721f040dec40606144f5bcc8b068d2bbb11c3623eb423b1030e147;
 0x15e35852381a52021bfaccaff799de57d8dc8606f2465e875c7f9e22a3183ba6;
 0x7e9b4e0821320afbbb23fbe3a2027192f2ec891fde602faf446d06b3a770c04;
 0xb743d70dcb58a6acc70835a005c7ce366876fe3efe504909b0cb87aece170f6;
 0x10643f7d6181a8b5df1e921eb1a841476a937fc6a473185d8322c9a18c487a3e;
 0x2928df7c94de7ff8a3770980f0fbe3cc4e4f5908537c40b9e75247bc31e6585c;
 0x168d44f63e58a5c713c37e067709bc369c27f428af5eb3eaa79d445b9d073318;
 0x2b8845a96842f965343a94e76efa217b83bc1ebe804c7b25e8b3b58dd165e79c;
 0x1f44fb02f387d2ce14dd149cd24fb411a7c738157715d6a1be66ec028fc01bdb;
 0x217b5aaf9893ae41030f6c64ee6870bc995427c81e04a265e1774401a5412a53;
 0x45a1e21cd1e0e5b296cc6e02e249a6cd0eef3f6487292f0f1c742de712a4a4d;
 0x1901d160707a8edfbb7d4533914b9b8bb06f565b1abace77f7f761eb33f39e5c;
 0x27dee99b80374f3c665a4dc5c89a8e365a5a93d07e51c727ddd6a896c7ef8a7;
 0xb1c7058abc3ca4f1633d64c0dd5f068d7fdc10f96e3ca682d1b2ae6e289aaf6;
 0x1c495d660ada6c32fa2f107a811730d99ec01d9a17dca7001e659fb8454b9a1c;
 0x100885f5765de1733a91853cf668563b88c9c36005cb54cae61a82b6bb65160c;
 0x233544636d02f161bfe5bae6e687558cecee34870235d36cace44c6d372f0545;
 0x222a180a868a589137d947276e3cbaa74ca5052e685e02c178f64767a4e66446;
 0x22b1b89514b6a597c1331e24ec3f4e3232821a7330a525629d4d7e04950fdcd0;
 0x229fd163ea1ae80446877d78272ce7c50b8abac8fc591ba25c22661cb1e1d5a2;
 0x5efb45e61466bbb89d081dfbcc8bd398bbecd324d5950d65151b80c102a0503;
 0xcdf2465b92dd04b968ea8419be7466b0ea3785fbdf1a7550dc5b99e781853a3;
 0x2acbe99eeb7c3a167376c64ce28e10b1628cc3f7f480e68dba68bd470f29ffc6;
 0x21c173647249e75c7c8cb1d097da2d4ccda1031ccb8be5a1d2c3d392fdea5bd2;
 0x426c0054e199f89ccdd26940f3b6e8e30bb744886d5ae6677ce75f0abcb1a2;
 0x4523bf1a8f284c6d95b310dec2b54e0e00e59b571dd9d46b6201c18e1b56dfe;
 0x2664a99501d9fcc7afebe82773b4ea88245d531d59a7a0708522c437a2c63c8;
 0x1dc35aa8ae4c95f4a17d44a790157b7f27045bfea974ef5818a2ad557ae4d1ab;
 0xfdae6869465240d7a6280616afc83e937cc5821d8cdef8ae9a085395aa708cb;
 0x1782b019aadd454d509149e265b8474467c1ac219af05a53b8f671a3d1c7ab8;
 0xe543d031bc1748852a333f2e031cbcb39d5715e8637ffa18f18d620de3b1ca2;
 0x104993ba9cad115c79a58320fb01233fb0124a73e040581c6621429cf2fd8e2f;
 0x2aec2aa10254227e5e0cef19dc491ffae856bd5a9b029d926b60cdee38a2e30a;
 0x14395653083408edce60edf4f3232a9614c781cfd7f6fd183ee22e08e9d46daf;
 0x2e200704e49142bb68b20d9f7df040a1bd32118b21d44f74dca2b31818693012;
 0x2797778f8ed2e9af3fc79ec16f248b6209c03036a7f0d5066237befbab16e11c;
 0x25e0e403bfbbb31be8c5360007aa9f2e36a4dc4b5b2b0823f8cbd4349970ba35;
 0x2e8423bdead0b3ee1516ec6c5c816c7ea3004a45a0443192427bbc4415251771;
 0x2a34015d21144652f722f141385ba0510cd38da886bc0df34352ee7ae76a07be;
 0x2a3fee652dcedc95a0b44a072aaa54f5155b036b22bbaf7eaf0b9c3cde42f4cc;
 0x135692d47c5a0d4df037949a54fc72f230314fe7629e0dd7987b620c66543505;
 0x142093c728ea36edf0844de5e3c4b4f1e1b44b72a413b7b2a758b5be41c8d616;
 0x2a0b459ab3f636567fe0f1330ecb15453f62a6993b748edab79ad8cdd0d535b4;
 0x330b0a428235522e1d5e4728b882d56a82cfda90452ab9187127ce73658a9f2;
 0x2c44b22ae15ba0f22763004e8fcf0af6c602a0cbadc67eff70a74000b67017f9;
 0x1c68c04dca5f72aab61b7b60219e29d1183c8d1de5c7c8c09460738b6bf9760;
 0x1c74af78ca0448531b773a27c47800cace7f86e68e4969d29a8a12f1b9d59330;
 0x14e2ebfdbf9c76e96911a23a9f9c7076b38316393fe11a0a7492e605ec7a9c42;
 0x119a85d4048b76c56f636acfce7dae71759828d711dd6b28ed0e9a236e4d8fb3;
 0xde9be78e2e3c344a0b76a171b8d7ce1a1d05f25790a2451102e05a91472bf35;
 0x1e91cd25f12f2f3cffc2490773f8af707fe1a6843a766a3c44eb5b8fc134b002;
 0x20956c83b24ba2bb0086a91f597d0a902f2d74e53216bbd9592d35c438648061;
 0xc716d79b1bfa9d016fe75522d771400fcd75862133046a9b1011540d2331e87;
 0x2c4f3e61d58aab9d3c10abc4656fea493fb3d6374708cdb2e084a67e2fb6ea6a;
 0x4523bf1a8f284c6d95b310dec2b54e0e00e59b571dd9d46b6201c18e1b56dfe;
 0x15762393eeb335167599c130b4b6d22fc3f053dbbaf7635f39701683f9642dfe;
 0xd7579361389b5dec0c5817e57dd5b775c48facbabb151eb0f7e2da5ae19d158;
 0x265b9eb82ef9bb6fe2f70ccf516bee6b9be401183f0932784a40a61186f47a42;
 0xad7dc8d9d0b28ae3046b8f23c3a7cb614090e05a3c9ec3fe8e2fab367df2272;
 0x2a3f87839d7b3e0528e7b9c221379203354304e363684e38f5fbeb698bcb19f7;
 0x2834e210d211aeb395ae05198f7a1c475be1cb0d89a8c0877d8e88a9d62fc5ea;
 0x8cf6af0f8c7017f0de1cf6ea6947009c1041169d5b57c49938a6a4c863debbf;
 0xf9b0115c9097f360d0fb624b14c8b4a1ceff857220a181da4c32f619b164bed;
 0x10902d17db9823294cebb8706f44e8752e5a3abfd8218ac27718a4c0fc8a458c;
 0x2ffc17ee98848d878ed4315e3ce007667b4f18bd43993e4d969e9cb38d8d118f;
 0xf878f0a4df67255f88423ffb527014656515eaea2e9cc36be9c37135041fd98;
 0x5dd3e66670174cdbc764ce0711c58f427dc503c798e29140820053da7694d26;
 0x2de49ecdb01104151943ace205edcc81ab91a9ef2af4c33ee2aa2d08bad6c023;
 0x2cb9a3284c718a566d7db309aa0ce6f8e61dba64a225f746b757ef2eaf0b9311;
 0x1d1c9593d0c4ea4ed9a491dc73821969ced386145cff808364bc37335ccf5a69;
 0x23a29371ad7760d5c5de4ae5024a4612743fa77b09eb566c9f41d216c9552854;
 0xee30c0ca292c3dbbcdc2471f750036531b0cb85eb8464d3f92466008ab94247;
 0x1727f0d18b422010f97058ff5e8ac23fc850951774b431a38f60a1d9b5560175;
 0x2ac5457bc236f8945365b828183f8266e3d1b5b3dc2d9ca52febacdcde11b71b;
 0x166d29ead2255e356ca2170969b7b9b94bbd88bb34ad7e5663f4d3a25a330ee7;
 0x2e386cdbee46199b48299bcd0cc8ec486f6c6caadb087b52ea86e51d4f39e736;
 0x7937bbf56ef747bfc1543e6cf5c653434e85a225f09199ce11747da5d44a530;
 0xae9d9852098390b4a5b9a075d32020a5d61d0a2a05fc6037408840d43bd04fa;
 0x1181b5e009f4e51aa287e113ed3be581245601ea27ce4b35219c7317087568f3;
 0x2475a06052db24962d86bfe804db3f65205984e5966c1a8695351dec487b611;
 0x1e9530a8088a3c241b2e5ced4157949565aa90425ec8b494def155581d6e10d4;
 0xc9c3bdd72c3442d12734c0f3bcf2bd1bc679cf8fac9127abfb316fbcae53202;
 0x2fca60f1092c4d48164a2e2c81fe134cb4bea555f4569e095389e181a4ceb5ec;
 0x4523bf1a8f284c6d95b310dec2b54e0e00e59b571dd9d46b6201c18e1b56dfe;
 0x1115614e19e210b59b4b0e708130dd845be5bee11aa1ce43984ccb99beb3624c;
 0x26643a2ea75d103a87b50ca1690a55117340ab3f4fe78e63f81187f58a392382;
 0x699ce3db9d5882c04716cd74bc49c2bcd5cfa34039856d27ac7354b60ab8412;
 0x147e382354cd1bd30bb3383eff03f89974b035a00897f89d9545cf501ecfb243;
 0x76e68370ceb55cca9757765b0c2eff1e05426fd3b1eeae4de2bd9f49c121700;
 0x8064483b1ee3733f6b6e9dae47a7dedf7baa9b67ff8471ced25395fa38cd884;
 0x26225db4d7860e869a00f54fa10923c8041cf313eb912318aaf8f4f897401f44;
 0x15ba41ce4e4e0b3c6633aa83180dab522a28b25887f78e8acb61b6cfc6f837db;
 0x29bf9692a1f8c909bf1d0fac4a04de3804e89c3fcc2b081cd25d44b0afff7b09;
 0x29838b380b43fda29e4b8824229a76291808c2a9c4864ba8e5577fdac75a85e6;
 0x165e81bf9d1b5b89ed739b99c84c53dc3fca070e83a818d5bbfeed37630a0b48;
 0x10a7013127742057201e42ecbc83099b49a60af2365f8bf7cc403a3095ed3fa7;
 0x223759ffd12a39e3e384c76802544c3778f14149d0123c1280fbb92ed556d9ff;
 0x707296bc5dc73b70944cfa07f21c77042753a479540db83d9115f9fe9ee3e59;
 0x205f5d69af9f4bb66c51fbbd99ecd7108c76240f97f758a17e60f46bdcef86d0;
 0x1210dd2f4c47992f4d5c7150f1bd9346860046534bec9bcbb3a977802fe9037e;
 0x144ccf1aeb8b78de9437aa82f7a82ffcb958529cc51dd5a283635ffc0b0a6c8a;
 0xf996b911c7c650ebcbf4bade79e10411e3d4ab0e2ec01fce87928c4c0f77e80;
 0x1b46a1b0ed04080cb068fdff6e531b02c002fc3d66b3ed2d656137001b7926af;
 0x19fce53edadf9d4cb5eae86fd8b1c68c238aef46a5ca33603367b8de0927b2f1;
 0x26b0885672f6494dfb46ed42a401176f2a2f42790725f14adaee8e9638a986ea;
 0x2db620812477b8d733297937c52ae01076f5928ec0b7488e855dfc5b938b80a2;
 0x20d30fe0ff4f57a3cc6e6330182f23fdd72c24aaf0a5b372a32a19e80a638112;
 0x2a5e3d7b9813aa7a0cbd2ba1c425d80e81e12de4060b90ba7eaf832f00f34d2e;
 0xab8b6d9abc9cf77de47f36daec39db0f7e3c7a31db631ac6ebfa501a4b3f94f;
 0x16c8438c2ff89c19e2f9cdce14dc380a8a31c1f65d059e23931f69b921e5b4dc;
 0x13d36ffb25914bff0a9c1b490db18fc8fd7a2ff9fa3b673aa2ccb2a64539c7e7;
 0x28b8ee6f7ee1d8d0d3ebe26bf4246e8eb545148ca86e60cbd0bfdf4e9b22660d;
 0x4523bf1a8f284c6d95b310dec2b54e0e00e59b571dd9d46b6201c18e1b56dfe;
 0x10dd321b7a11a2bc96b3f4719b4b443d94e5aa2ddbf428d32e863d7b956aa085;
 0x5fc6b8b740e55f5d0690b7e2309f312d089c4555f057172a6214835460a342f;
 0x2951ef2c77380bae297a4fbc05ea97de562ed3d80aa8a986359c3ff00bcad10b;
 0x2b7c767b440ca0ddb88adb86af53231819ad6c21c222b09a8fc8f9d61108276d;
 0xe44d122f91c40d9470afc3e484ec8f8fe6ad0fd24146f1d38d717da4db7673c;
 0x1ba47ae303c2e76854d7f399c74f48dfaaa3287c07b9b79bf1fd08f9da703c4a;
 0x11b425d8000810e925867f7a9850aa799aa2338185b6f97ebbeb7b481a52feea;
 0x27abc591fdfc4152cee25f4fb6d0a1e932a396b72c311c05a99a9f923b1f7014;
 0x2a7294a73da17a02829961f0cd5b34c67c909acc3874a238637fb570d4c23046;
 0x8b325e346b09a1eef8be7fc3d81867135e87ee9958f16dab759bfba34b0adad;
 0x1d8bfded258e085fd2c871a9db0ca38ce5e5d232d2859c9e3da87829057ff232;
 0x10321b7d5466be1e92a7b8f17a16a37baba2987ed57399fa903b5385d81b19bd;
 0x1385299af14ad7cefe90edbd656d72126e0e9078317306984f201a98e3e87ff6;
 0x1b3f863460bd743da42eb33e47d2cfffd9a1855e9fe571674798d3b0d2aaa8c3;
 0x16f65f24d40213e86452cb242e20a222d8bda274251b4fbd82dc110ad78f1101;
 0x271aae4782989dad19f84117ce0466a52e16551386b42a74552db0c6e00442f;
 0x2913b1df62de1405241829ebd6bbf2719510cfde2d374c171f2b0a3956beacb7;
 0x102108bf4a73ec9abced652ec51ca12fb06e48b5df049b9e37102ce0a77b657d;
 0x206603d022cc8608f807ace7c0ec31d9dd98c202be6d1bc47a4d44df54bb48fa;
 0x28c4e8e4ef10710d1e972ee6a4a2f88aa08a0d6fbbd77cbd057ce83ab6b75bcf;
 0x1431769f19552b0579c9a23e91e9f017ccef784eaf0b52f33819bfd72ae98f42;
 0x20c42490a8ca07d9f39b11e720b833ccc033e1ed16a310d53222877b0630336;
 0x27e9b6a362bfbe53ee9fe071410ca804a9bbfd2d2e579b95a50d63a16c988da0;
 0x2e937b74fb17d63c90d32c1258c1cb4108f5e3f82246fd704d44233653aab860;
 0xb1b6974c506d78acccb5e1b6c9a5583e9c922152ec0d113495dc49b14a61c8d;
 0x18554cce997dedb95d27bf135c8bddd3b0c8aad0551a6f372bba51613c0335ac;
 0x132069ecac9f244a5e447a1cc19a998073aec780e8236c827a66bf9fc6ccf8a5;
 0x17d40185a9458fc6b98948ad7da77f035fd7a3618233a43af0d0e511e5fa37b1;
 0x4523bf1a8f284c6d95b310dec2b54e0e00e59b571dd9d46b6201c18e1b56dfe;
 0x275d28b52043874241a3fbf29f0fc8725346929cb378a7e4e9e8c7a8ac1c4128;
 0x168eb99c86d705c289b00227d74828339e88cda8ea726d3d9acbb57ae75043b1;
 0x2a76294553220b5ba2abadf6bc42a902641312f0bc1953286b08ba16ae65f435;
 0x4f55222eec01a996c9c4c70c11f6375714c601e1547cd47f1dee0b3999be4ca;
 0x26afe145a5c9d058fd25a6404e4acb62cb13d299de81fac1deb35ff9f4a40c33;
 0x2cd5c836e175ed7a902fe2334f239d499f51b58db73bbf2b1180cfe4c4df7936;
 0x29b7a4911bb67a29bd7368c0f42079aeda1fc0d452efb2b129b0ad93fec02eb1;
 0x258d09a47dffa2af8a1dd733c8b08f63911dff878a2fdb4794e319d46a63df7f;
 0x22e2643fe45193389fd7981bf191826724d5ff1f0a68651c1c98ef02d81f1b0a;
 0xecb1213c8df26deaa40d8f6c4f0a1d4e3c72da3dfc1f4370de7dad7e32618d;
 0x14ba09c0956dddfe7410192712238658b4d65506c78e318ae769d2732c63adde;
 0x2dcd28c30f44c2ee7d8121acb638debab46d0feee4dce60d494acb677134a60f;
 0x117c6959729d1d774ce1a8fe1fa28251592f3bd62f86253929ee45ca959e4b79;
 0x2c290cbd7d76fc9f9cdcfc47b48fd66ab55d20b7e2f73357e68319367c7fae08;
 0x1f40cb5c53ab688c259fc3a2bdb401115330f3b2850955a39764374e5f2b5195;
 0x2a58a19ce1744a2411fde6401a6f33d899f9fa9c59eb6375530f45bd8a751339;
 0xdf6ce7e1bb5c41d366d6d7d5707c63eb3ae9478043fe167f712758a05b49206;
 0x2a32f08c015e3dba1d7193b31362ea88156b370fccf15c48abb7133747833ae;
 0xe549b8f127e7ee7a8e67f9dc534fc8e3a627059b406379c63d86a54a593d86d;
 0x2ad6b517cba39a16caa6fcfd53d3b8a43758e360c703aed8691d721a523ac174;
 0xe000e82e93b69d72b8385885464cb1531c74d6255f1c1156539c89dfc84091;
 0x24b57d1e4c920be2b95c0fc8a84f5d5603f0c286e80d71669d60049b94770419;
 0x24c65f0e2ad6e614ea9a53b058651459f966152275afd3cd6924a1e990e7d201;
 0x1d0ae8c3033577ea4b1f2dd4b68b83620a1ffcb4d5426e9603d4ccfcb6f1fb66;
 0x12c81853619d70f737544addf33b8d104af13ee311ed522df131bf24d83dac85;
 0x50fefb4229d0fbb58756c49b28c0ad0fee9338a1fb239f8d8ef12e168aa162f;
 0x1dc4a881539b03ca1b5493a594be14ebdcb60bcb2b4d1b58868d3a6558410173;
 0x1e7e5f574d74633a061ca773e969dce83ad758e4d08c37e3900f62c5f9b805c5;
 0x4523bf1a8f284c6d95b310dec2b54e0e00e59b571dd9d46b6201c18e1b56dfe;
 0x2d030d498dd22e5f9b3761b019f812c2df002ebbdbe5da92f38be1ff1cd97e65;
 0x227f6e1b292aeefdaeefeeaa2e7af21fcd012a794ca2c18d284661cb0fb1dcaf;
 0x9a991758be8db845ca4b488dfd11e27f0c773c88c2507ad584dd73eb1709358;
 0x5b3c08cb06d23cedf2cd4c5cd248514a89b09ff70ff56f90221492081480705;
 0x207e60dbdbbbef1f316198b79e4df3e688c3c71b8f82e0480763cf729b6bba03;
 0x1d94aa3d4e98c691b3efaae72ae18d50d90ae56629eb00e7bc324eb2362d27e4;
 0x2f99f4602d8a7612c573c3ed2232eba3f91f030f8b5c2dc6de3d8aa60bba2869;
 0x185a7fb027b40f8efcfcbbde02cbe15567d64ae6ac9bf206781703c07d6272ea;
 0xeb85ffa7ee5e9fa96ae4697ca527ee7bbfb69b5df611a1b6b715a30f9b69b44;
 0xe6507cc613c091c3f6d563b24b8b78d78262d7e6a470ffd98a1ca6cd0da5ef1;
 0xfeb286fa095e4decdc49ea3f57da799b2818746837f591941e67a93f2bdcdbf;
 0x157de51c339785fabf4ea584b55e158485bce7dd521c0a25160247a84d13e6b;
 0x118b39a323a6ab543f005f26c89c673480204a183a1f68e0100d6be4d55df254;
 0x200f0d9065e79bf29e35fa9ce14f0d87038e43ec1c1c2d4fabcca003e2f2d724;
 0x271b6dbd7bbbf9d98a9c5c8814c58923aed6e4a31d7bcf8d723561f5116df99f;
 0x22594da35eddc1850dc757649b53c126403a907c6113f39e940e363bd2830509;
 0x9a6a3e13a6aed0fb709786ffc8a7d560642a59f2cee2dc68781130407455a81;
 0xd5de9b94917addd8b8ebc8eface4fdc044380a27446e5d0170c4aa965b8e48a;
 0x1ba4f74d7dbf44f967060c619e429485254c8aa06ac08bb8fb101a4c88811cad;
 0x2bd393ac0c6602f63ef13835a3601f6c4f84f09cd47cedf02ab0a92f0f59e813;
 0x132cd8a625910f7fa7a999d0338010825c353659385ea10a419255dbc0a3456d;
 0x2bc9e5ad597c8f773a7ac2dfe21c16a9d5493a1e319dc942e635067ac6924754;
 0x21af2adf48b95cc677f255d44aea3d1132115782cea08bb82a526366b7affcbc;
 0x1baa899af3a60f883362aa1b88ea17778e258d3defa44fec1b3f4f9c13b890cd;
 0x1083673f89cf1ffe18b41d3cb7084270363c519ef6a16484220e30209f83d976;
 0x5a5be7182497c5c2ec9e91b1a4af88703cb01ea7e7d8dcc535d72a60611f271;
 0xff6f076a63edf8d87f70b60ac0d64f311eb1771d961b6b33867a6378181088a;
 0xab810f3e1dce08d5e5289d8d32a3ab20ebe56a1e3f6cfec818462804b0aad37;
 0x4523bf1a8f284c6d95b310dec2b54e0e00e59b571dd9d46b6201c18e1b56dfe;
 0x36339f709425b44b4b4158479da0b011c1a67fc8edb682b0a4437607b9aab74;
 0x25f49340da53700404b20e59243b4e5158b8a2dc24acb8f072504149481dc8da;
 0x14b076d2ce8f4cb8d8323ec8d743947a7c8fc96f149c0dc4a74d883939d620b2;
 0x4a6fdd5c06168268ddb9886b5b9d23f146ee182a155e175d17b07ddce7df8f9;
 0x8868cbb867db89dc7895e3c2c06466e0cd0936eca7e35ab5fb8f63f7a4722ac;
 0x13639b2e24f941877911b94bb9a0256f480021097c2f8d713c088c628d8fe61d;
 0x2487694daea37ed9f66185b6ba5700abd9144c18def2fb87af3a4fcc5b8a6b5e;
 0x62db9b179c1677bf6cd17e9bab4cbbc17a113c73c137dc6664bf4938f723352;
 0x25d7d897d92a0fafaca382402a1034b20ffde5b709d6092aad0e89ee43f48fde;
 0xbc883b75255e0e7b62094e1ca2aa65cb2a2dc7c4b30233f6e057257b25adcc8;
 0x1e902b42eb37ffe108655260991d4f28d286585d6e9c172b6d87be8e08eccf31;
 0x41a3b254a2c8446d8e99a292e24bc1858eb3d8fc841bc7e1ab03dd5f1c40ebb;
 0x21f4b9d60cc5ec13b8e87d116b27d89626bc76c0e8ff4caad5f825f158feefff;
 0x246be41807bdfd90b7cb066201cb33203cfd557d218cca9ccfe1451a86f4b258;
 0x13760f834ed0e52211b6d9b36080dafe079c30c279777ed992882ede9fdccf3c;
 0x24e75fe9b1f75436c465b22fb0520ac1afe2cd26e0a2d7b6476a3c9740e1ada8;
 0x210a9a4b2b1e03dd5fd270b8303f7bf9eb268844761f67473372cd665b1f319b;
 0x133c572bc84ed9a77b6651162bda90620f004f61aef467671ff8019ca6c09bed;
 0x1bc35641ed2b845a94e93bb2b89889d0b9d3338d45503f21f1fe9b0c09394eac;
 0x1ee1cb63ff99f240cb1d5f11c0abf418d696a0b73560afd9302a5119750daebd;
 0x25e5840c2abad4b937edcfc1ef54894d9556774b1e921d1a437278f8c3386222;
 0x137cac7ea18f1785a86b769785cfa6d919af27b77d7e1cf07cb4070275c91384;
 0x2e39652c251cb2e6a89166be880e1021996ffc55dde4b823cca3c305a1836794;
 0x3ec58cafe270aa7824551c1948911a0412a4985d79feef0324bd63960c6995b;
 0x293b947e1e6860bd81442b2c2a6fb3ae59375d12f857b5b8161e0f4bfb430ef4;
 0x2727bae7d504f2181e1910bb7eee349eaeb0480d214fafd019662edc067a1290;
 0x1be2f1a5593378d6fc1505e59c4c28ffb6cdf5859a5e2e1bb5b49a36051f77b1;
 0xb1e3d4a0d6e3bdd411c1f8dd4f2553ae84544b84a57b1f09fbdd26670d4b007;
 0x4523bf1a8f284c6d95b310dec2b54e0e00e59b571dd9d46b6201c18e1b56dfe;
 0x1f1099181737a09a66b13631030982bf438bf84d3715a0bed3cbebecaacac44;
 0x249a7a0b3a015a04fc08a2c6cbc7787aba1cc983c94a3d5074f584edfeb2416b;
 0x237bace2c06976c536b56fb5acdd2ac51fb2be8c204834b011106f03eb3a297d;
 0x20d83c51cb9e2a1fb0a0fa7f32c69cca88e6af24878f21fad622e364a6be6c1a;
 0xe65df5618a774c899d19e6a6d8f0aad4a10c347b12ac1fcbfedf7a9f17ed09d;
 0x16ab51042d2c056da53bbedaca317fb7543846fe6fb147279b5872eee7821e54;
 0x2e2d8b570da9329bdf02f5feb01f2b6e32fb795631c6be29e03a1c0ce31c629a;
 0x24d1fd499e7bb80cb2d0ca1fd09039bc4cf518ff43725796bc2b48d237c82e78;
 0x6a96b7d99b2b7a6e57cbb355217ecb8637bc3d4ded1e046783a6d5f63689392;
 0x19a143f1c5ff5191d99a6f144d8635ee4e4833b0b80a86434a494a6a97273239;
 0xd4e60cac8694ce18785f94c5c2f18ddd5eea3cb8a70ab4bc3e533b3baa0c674;
 0x3062c4cdaf43e790dea387e5bb1bb16a167f30e644e5411f9252042d516b8f0c;
 0x1b378a25d0cd861fbc9491836aa9c1fc169456c2027b34ac1b61a6d7090faed9;
 0x21cc1b4f8732b2a733b42718b6a48429df379711208deaa65a7eea4af1cc7d30;
 0x2115e1786ec90fa373ee1a8f50768702b3b89e4c0aceff138ac487343d707792;
 0x15ce8b9c8e950b1292ee1f80d7e271d3c0b714c1de34b76063624d00a686a39a;
 0x1d0e917e058eb6cb8ee32e9da420bd6399f8b2297876d84d997ecf8ab3b0d156;
 0x24d9b1d31cd6eb19c0c63513a6c3fb04a43033968696e954431d00f128bd6349;
 0x1e4dae551bca600dacc58fd37cac50bf2713052e2a4935d64471f585508f0d9b;
 0x11b1cc629721ced48c3494595863dee3de1598c11a681412062610ac859735df;
 0x26ef5031ab96b02b00df512752c7165e368f406857478f18d7230b6e4a1c80dc;
 0xd83775fafda795718ca9d4777d79b9c4354a73bba6813c415b3b970fbac6e62;
 0x20be2cd9b7d6dabd4db0dff89911987ab0479dd9c1c081fa64b97fb97c8d3143;
 0x255bcd5c215aa3bb5bd9e05f4bae4a68e152e3118fd09368fab9fe69e23149d2;
 0x1947d75ae45108e7a86d0e3e034bbaf27b7fe718451e3a5c206dd5a122a917f8;
 0x17af7f16f78c7b517171424fc4f47ba88cf15c4224bbd13afb3bfb05df96d89e;
 0xf736ed6532f0b90d30bcdcec9b05d1c59070f105255e7d60f8d3178e753c5c4;
 0x223efe61713a8d50c4d8f00ff69c45ea5f27defce0f08a9bc74e7a82084bc788;
 0x4523bf1a8f284c6d95b310dec2b54e0e00e59b571dd9d46b6201c18e1b56dfe;
 0x13a0d52fa98cce5cd43bcb4aae2038de35a787f86d375b019d7279a135ce710d;
 0x57d3beb3548cc7650f10f293fc2d393227dfb72422e89072dd8b90466bb57c8;
 0x1a6533a65e764adb163780a18df2e7f0233bef0eeb6276895c76a474998afb79;
 0x1913a71c0e6f8c87f433ed6ec0bbe2e7397544c0dbed7199c5f4b7edceb06a79;
 0x2266891fa5e56d0240ee9871ad7107c0d740398f8cc9165a1b09e10a2b740c17;
 0xf5652567afe30f4d5e934d9852bcee7ea0a8fc142b4822d2340853022128fd0;
 0x5bbf0f89f5ae6f5713c18b57ab2997abd8bc8c0fce08e2047ffee7ff4e8bb61;
 0x1a7bcce0d63b580b6779957d56f9abfe5aa8ec1fe610e952c4259091046d42;
 0x2b775827170698c370c7fc1706cd95b8f6c7750f338ac0fcde91ebe40cad9dbb;
 0x1b9c97f57c84b5f780373eeafecd7a4ec3e065219785272820672d59e985526e;
 0x1c89b9708064d8558f1361c6acba6d73eecd06c4e4a157abcdce2731cbea3e95;
 0x9a22dd01ccbf3e6ed2de7d74e16f58edeb748843b19d0cde8756bdf30e7f222;
 0x2678274dec9c2180d4f5b5e07cfb42c2489afa4673c61f091a5dd00ab0e6018e;
 0x1400af0c777fd9934b9fa5d1fab3576164ef9b31a6c8be59f72cbfee446aa148;
 0x2bb2d320c6f15fc80d7c78fd8110e715403df00154b1d275fe6422aae8d68cc8;
 0x912b48b8c530838be3512cec8d4c210726e17d660b2a726bdb44f686052300b;
 0xfce537edac05ca8b03b6b472dbe1813bfca33c05fa1acdc695c6e91d60529c7;
 0x1be4e4888a092ed1691160e4381ccfa8997237e78cbd7ecdf8c12066a49c19e8;
 0x28bd303aebbdad8a14ee284102ac2ac5e23680287d8c3587a71cc61ccd6c5b90;
 0x110b79c0bf8f52881c24f4e7598c5f5b30112675a2655ab183be54c69f8a85f7;
 0x2d17b110312b5b8d233dce3470269203776b47b85d143e1f45d59c1685ccf272;
 0xdff609373bc4eed749b401df1e7948ce8c8084f4c816844c29ea7a07cdf320;
 0x21445547b6584627b60ff1364308b6d6d1d08615de63a5c2ff1ec7f7764304e6;
 0x1ad2606e3877709593699f24a0287e2be54a2ba74f3551ddb1332c7cedad0d30;
 0x10c695276f9d6578a7bd5c351c1cab9affdeaf9abedfdbac72ffac057b67d7fa;
 0x100f820a8faa0bc1165b8a16f64ab9baa87fc7e94ee23f5a16125a71cb06b838;
 0x7bf7f1faf360f65cdf14fa9ff38b2619b616f2913b7403a4fe0431ec15a57e7;
 0x7b95e787e34c76215dbd3e1c548e5646bf3a061d087ad6477cf962a3cf73dad;
 0x4523bf1a8f284c6d95b310dec2b54e0e00e59b571dd9d46b6201c18e1b56dfe;
 0x2ec7afda93383730c9043913c6b866c20a5122081a7744f6d6a317b01177affb;
 0xeceed2a6602d291aab1064254c70fd4113a09bbf3527f603f67f01336915d35;
 0x284b37b2fd2c4ddbb2bcdd057a56680d46b7d69fac63b80c991f14db1ab5b345;
 0x10ddbb4173b040104f12ffb5fcc87bf6730ea0c8aee88f9e2c00eaa1a4231804;
 0xb87d2c0dab9ff1ec96017e8c43bb5281266fc92231375e78f02354355eb0c74;
 0x255c350cb26d49d41652f9a27f8d6c223b8756f8797c0c960aaf36fe91b4c910;
 0x2ffb78c0bea2534d67c0b061f4ecb9cff5cdc0bbb9ba0567b35b5434329ce24;
 0x16aec970d0f171ac2f7183d67c969ce69cf1f4dc73b38e3a72d8adbad367ac92;
 0x2e74c92c412e2d6943dfb7946c80f5fa9ae87255fcdbb98c437b65f97fec81b4;
 0xbdb1fbc8b81f57cf6725c95bb9428bbed046d555dddbaeb02b3fb9baa750fe6;
 0x7bf15085936894c23de42271ca102d554a45b54ae80fa0c7e6d7aa9c72cb65a;
 0x12e18b956f687e1c43f50a6571caeee8bde8d7da9ad5e5e27ffad30f833eae36;
 0x2c45b659cd395880788e5215997b77761c46555ff084f24a0d28dacfeecf5c84;
 0x2805d6c3bf0de9aa5c7c354947020efa9489995e8baac233ddf04e8ea8ba902b;
 0x18187c330b42dbf89ecc0435f0d77a7cec28d256f65047d4a3e1ac8aa6cb199b;
 0x2fef8da38b7959eacb7ec6155488836641655c11b8babc8f12e715afff115d4f;
 0x88011673864ca6778bb97d51eb1f2962b69d07a496b6b7b370cec217c601ae8;
 0xf6e83f3c55d5fb8b6b6c89e176a5a4f81a3a0acba7113ebee661b411613438f;
 0x2d59be2aec0efbc67f59da156d934313e8be205c1460699f0e70e7fe5ecfebcc;
 0x2aa0544263e125a82d9ca1beea6d9cf22b40afc7155bcb0f1c8b1ac23a24f6c4;
 0x7e3a92c9ebc149a74d4180ffdc30e8ac7bd6598d78bb8f3530403fcd9b12221;
 0x1827bf9f11d4061c506954039093e66e60041b2c96b8f7e1e4e550582d1ea13a;
 0x2e147c8ee46a45f0ecc64de8647e833b1ec708269b37f4e29b17c91b9bab8280;
 0x3117f4c71dc298ea7cdc53dc55f0a15541a369691622934416026bb1a65b8fe;
 0x122fefefa669bf51b544de5c0aca38753c8f32419b2ece3a97f0232e523f4cb3;
 0x18e8e58431e6dd229b88f142f9cdff129883bb54edba0854b29a8add15354d97;
 0x12e0b4787edc9f9d3b12781839f3edfa715accb3e527bb66bb08d355b87afa29;
 0x2489282bdb046d49227adbf0c44fdd3abf0bb2ecb21a2886336554389d452c2d;
 0x4523bf1a8f284c6d95b310dec2b54e0e00e59b571dd9d46b6201c18e1b56dfe;
 0x1e2fa77b090a5c2e5f1d37e25ba7d06596bfa3b546362103a4ff19bbacf7e9bb;
 0x162a1276d397eeaa3cd6ee80478788dad2650b1433b55b07919d966a1b87ce8;
 0x26eb2facb83a5a98dd405a0e6a94735a4c04c19ad847c53fbf047732eb114fc;
 0x2b7496ef4e35f11f739db9bd69ffbfc416a0c45512e31f86141641bba04f3675;
 0x26792a375f1ca2315b76d17b3f2bc3d6a3edc3c54f8ae682171143a91e48f091;
 0xbff276591776a997acb59a579846525f8fe7634d66c9477f5406b05985e7769;
 0x20e9af0c21b5cad7c87e554c98052eba561458f8f6b6534c4a1a0d0713681866;
 0x1f5e270d7be396c13a4f29cdb58c7e4f267423ce2d242c93049edea4b9fb4ca7;
 0x26ff7c1cf25310bd71e59d175c3c3a0f068a54c8493c401a3b67030922b5a757;
 0x1276fdeb195702a6a855465cdd5b807f685ce377132b625b3f1a5e934636e59e;
 0xfb72a4d993f139baa0ef2fb229cda32db7cde0f10c9031ff2f9ce3f2b883491;
 0x15a52948bb2ee184cbfd9d2b419836e859f2d39291654c082261a8a1986aac6c;
 0x1a9d4106f5a30c459a80769db1359ea4a3fa0e42cb32ea4ff03c9b800dd8bec2;
 0x1d9250e3e49f0b5829ce06d877703ee0c8e9a51b516f09df7dac3410d6a7b5d8;
 0x2524fab526c690d264888df207397be10a2626b71e97dbc66d1928e358bd243d;
 0x508f820d3a3cb5e0d30b4a9712a99eddcbd3adac2b1301f123e1556e975d30e;
 0x2ef65d57e70b07fd0a22938cf1065e3ac3996df77e0c100d354eebb224dc449a;
 0x26b914f529af1a7e31afa5334e60374474b998ae18e99efdf19e40b2dedd49fb;
 0x155837584dbdbc23962e00fa5a6115c10eee76681f25c51280a1bb2842d8488;
 0x222e724b780a46377b77fd83af70b53cb39a1dddccb0eae70e4d5dd6dded8da6;
 0xd050bd15578fe41175ad1e75a8ad0b27fe8943d894ddd74aed4b463b7f02790;
 0x5c5f00321782b3d2fa6fdcb67fa63d1a00a9f63d35f4ecb08481ab535907d46;
 0x207a0c370129f953e15836e8f91d7fbde34553f94d6b899e8645c96f1731f098;
 0xf875acc749b0abfb86f3bac9e8a8e56be9b9b55ea8815d19bee069150d27fd2;
 0x38a70dd168196731fddef341631e16a97447553f924d6c204d440dfddc0b1fa;
 0x1502b8a3411c7391414156fc640e8a51a1171ad07586bd6de2be2e38fc6486a8;
 0x7984908f8931b938e16c96dac3b58d151c4dd0a92d671cda98e16953c2b7f6;
 0x694d96a531fe9e369427b3457bbed265de03924ccb0331d4bc445c4260c551e;
 0x4523bf1a8f284c6d95b310dec2b54e0e00e59b571dd9d46b6201c18e1b56dfe;
 0x17efc478730ddf82a8540cc83c4770636959f1b0d8cf438b239f60df816d7519;
 0x6d6d06423d66562ef9caef0773f3fdbdced70fab47b0de7876b7bfc1216df7c;
 0xc750b14cdfdecf7394c6039339cd465a8a010272c1bff8c9190ffe3f0018d7;
 0x15000d48d85c719b68db8c9ed7e68cd481437c653ce647bb7c965ef9fc1c07ea;
 0x1b18af3d53da20198957288dca6a567b798666bc14c13dec46429100e01f94df;
 0x16e129dc67d5c08c79c6fdaf38def1b90f6257ce0017488b42ed2d46bdec04d2;
 0x1c958e9abba1ec33523e756e8be1e0fac90cf1ed314b37d21a7b4d3c84e574c;
 0xa4487b4c046d0e836db729d214a2b6995146b527ea42d9f1b1008d321a4c7c0;
 0x169b2c93aceb1182e58c94204e285380af13476c86b6c6ab3c3a65c15fa21c4;
 0x797bc2c0b8e08a4eddead0572838c237d0d825e236b725ef88269b0eea4d28b;
 0x2179889dc88d5096ee6914c03f347b9d9e7c5cd8c8b9930b5faffac69478b6f8;
 0x1057d99f4e9409dc2a83b8940d79e8e1c8e9c1b55a2a10f4261575653bcc89ee;
 0x168c49e73137bd006b0b0996b3da6d2562db2a94f94a8e763ea36f950c0f6342;
 0x588b7dc72c564a70347721e31544dfac82344701d29b12bcfcb99c951165ff5;
 0x30052c56471167c83d58a970764a1bb51f602f45b8fe42494182d48386d19001;
 0x284487bda08c8fb308bd9f50b700e107e82ac7ecc25ce91362303a2a2286af92;
 0x2e1e79d879db7beb9259bfa882fe3a1a34345451b230d4e27d7cc8358e43dcb2;
 0x1fdae630269a40c8ab1a64d8fa09af3a160bc7ec218f7aa5ebca2346c54590da;
 0x1d6caaddfaa7d7f98b2a093524361dbccf489a6d2bcc0ea1e2e13abcb025c83d;
 0x5c7c0b2bea90e985b2fd8c7e1e9801335eee69801dcd879edb5101739294534;
 0xee54de6bffe8629a8fef48dc9de7a50885054a28dc85c6649c42abecd607dc7;
 0x93c826c2837f20a15a7dab825f873ca79fee1607b2a1ed279d561b346aa9e63;
 0x21c75ffc19ad7b92256ac9ecba8768feb4b6eace676e2f6700c87b8ea6867341;
 0x2dec2f08ab0884ac001557f139ba7305a30d8c342d4ee53e4d4e6abe61879023;
 0x12612b1a8d7ce43e1cba045f5c0ff9cd61ff60a4df948847a5f352996c0150a4;
 0xd0bfc972a52fd760da54a5e78a4d47042f43be8ce046bb4522be2beb644dc8a;
 0x1bce51a4e501309316d08e24fda303a3f39e962cf2776588c22381009c08298e;
 0x19e6822defe86285515bdee389f08a4cb9e8042ca87435a47443cbdb76d30814;
 0x4523bf1a8f284c6d95b310dec2b54e0e00e59b571dd9d46b6201c18e1b56dfe;
 0x2e931e74616f42a131d4a8b56506fbff77845d8bdd66420beb3325097c35d2ae;
 0x12cb5dfc2abb8252e9ff46727444ac95b3ea73f0410424424488e144f8699673;
 0xab23891e07d9b14ab6468d8b54083479ddbcc3aa385804af4531058b6f52f21;
 0x76c297b77611e733d1e889aa59629450dc9a47d6b0f134ccda083f436d85a5f;
 0xbeb7545c1a73b517a6c89f22ad332b7e343bec5aab4aa67759d1bd5c513cc8c;
 0x4c7d041c29a50e697120f25caaabd6be874d81442d23142978d9e30a18fcc0;
 0x564102c95e897c7df22c2a4ebd2f41df79b27754dc83ddadc1e8fb5011bef46;
 0x2c05ce35ea49db3699362c4b4b64a5ba68cc375ad8aade0365ef5421901a5a94;
 0x1656b1dd63124d1354b1830de366e2c3e19075d195f6fe6dd5b28a599f37dcdc;
 0x2507b36b6b8e24780ab4b7be3c26ad57c16fb9da2edb33c3f1dadf3ad05f6119;
 0x126e91f50c4a00292aef54cd15052c4bc6114e85478479b60318e6dcca5d6c32;
 0x2f9ab42a46ccd83e7a7005d4553ad3414e5211cc2730424122170c92769905de;
 0x25aeb979b8ba4e466651dd441683325ca06867a60d27d0b51bab47a73ef3b303;
 0x1856e09404e55249a6d7114a4554ed94bc09dbe373ee994cfe64a06a70b2cb46;
 0xb6edf4c57e87dc5eb7cda564eb72f7673631ed91a612fb422487ad732be85db;
 0x2eeb7ac6201d76d7272b2b8861c44f18045fb30837baf0040fe472d972a0051;
 0x25e7df19e834ef4fc02b6bc24f1e45c42d935dc8e324467f216fb7456e344584;
 0x22254c3bfc63bd575812867c85be048ba6f3cd2d2b600594703450a16ba7b35b;
 0x1f04d9141844aee56a08a3e8b056715e347c668ccc6f1fda6dabf94b2a077531;
 0xff41228c1c85b1f6d2df6e37422bf7ed8b7dbeaba7da63f6f96bf9b3a525fc8;
 0x286cc1fd10f3b5e4d3b48d6996d85e284b6a6b215c0b862d5a29972f6ee1b681;
 0x2cb3455b4afc670928e65d5aa1461ed1f048865f31b87ff6bae6f1b13303a69c;
 0x23dd832c9d5244d3f7d185b3e8b3d759c11b86ce8102dd3811fc743e62a44dab;
 0x128a2af0f0d1965fcb13344373cc1bb6f4fda4a5c28cb7eb31fdec881348eb90;
 0x2b9f84c295307fd52151b60b7b676d157ecad172fc2a8cc89f8dac7dd6696921;
 0x10a3da81ead6ed37cb8334cf6c7d65b69862ed22f485b092bada3c0e516c48ba;
 0xd34d3d1a4e840d8e2cebc5d527a72ce929fdc7ef27e482a0f029a7b8c6875f8;
 0x5a6ae7b5423c19aa7ec80748ae9c1f5d189935cea5723cffe87ee7ceeea8c04;
 0x4523bf1a8f284c6d95b310dec2b54e0e00e59b571dd9d46b6201c18e1b56dfe;
 0x1578614d9a2967236aeda5f4a4dfff54693efe351787f006c743eb600a936bf2;
 0x285c79334945bed5f5c307dd65410ce6d6093d95dca5550146995d79028aeb09;
 0x10b5fbbefe482164a1e9c30bb4631861a12476186ebba60da59a8172a24fbc4e;
 0x1cdbb43b87d76d420ff6e1adef1ade355edf97a1646107d44993af476b78b98;
 0x19733eab4c8e4779cc914f07598df3bb1c2aca04fbdd5a116f864a85f7a81fe3;
 0x3009eeefe893a6b04a2d51a027b63406170c305d525e5b959e057825757a8ff4;
 0x2fe6c9de6a79e7bb2342a0c0992a9b8488b4bf43da0ce566e53bea4bd24e6018;
 0x2d40f2520a5df3a80ddab03db8ed7af99ea054e3a159c4a3fb6fe79a769b685c;
 0x22340e058329ac548f679421e17152d6106de7393cda87a9f7351cedd26408ce;
 0x5609d6cb0bc2a003ef02b3f62902f51b49bbed72fdf724675ede239432cdb29;
 0xa4481c88c41e347a2ef5fd6b915772289c2c90b91b3fff301844dabc1c51cda;
 0x14ade810e267932c4023ef6fea6ab0fc56063c5740a256c89e75a17264fa2898;
 0x199252b794492b2d35beeae8c1411bd1b5177e17af65c6f86ddd3261c2f8999f;
 0x1ef0142a7d35ea276712c1b5b86e1386201c18e3f774321cf69b6a0d2ee3f226;
 0x24cf18fdd7098067ebe68731ff580f7c01de7251814a4666ff518222130aa2f3;
 0x1087f37b188ac4ae2e05051a05b60e0579df8f4223d874716a6c251ab62e5b0;
 0x1f0aeda37e4d1e81150239b71a4cda04f0e4d8d7588ce691721df28fe9f18c61;
 0x1184563ea49c28693ec800bf53d6100048fbed518e1317ad922c095d486778f7;
 0x28bb14de4caa8db804e9cfd9e92cde9011c829e5cc88a709d1761638c88a0593;
 0x5e1f290e1cd58efecd18bdb15575356b84677a59c118b465b9671f81639783e;
 0x25f7a0d0ce8b40f8b02ca63dfa95a68e391df9f6d24180cb3cc976b4ce04fc11;
 0x480ccb16af84b2184c6f5b529a3d8f444f83dc11781a106ae10da23f61587ba;
 0x539296f5b7b7008de45d5c8516fa99db18f1a822529d3266f60fbb9959d4eed;
 0x1e424153fac06000bbadc168cd28c2456abc7b0be95eb89d8dfc7b9bba75769f;
 0x932c03c10fc912a134329f330f819e8d619aa8a9b6f52599e0761ba32c60e01;
 0x1211f6c693e1d0dea72aa0a0c505dcf1f9fd56e16545cae0818d554937473906;
 0x423bc3cd7620b919908d77becca14373a0fd5e3e9ba4470d967da7ee65479;
 0x2118cbee96964430e47912132f0d6f1c2e6fef1c001c8f55ab591052123d04fc;
 0x4523bf1a8f284c6d95b310dec2b54e0e00e59b571dd9d46b6201c18e1b56dfe;
 0x1f1e2374f0f17846133ddb87fa54430c6c3ddc9c532111de01eda3684f397a94;
 0x208b76b6732f2ed681d8ab9f1b5c510c8867ac976a3fae72d5f9d88676a75a7e;
 0x1fca7fa1aef782e5f42195a7691e73b90033df38495b91e5c38e820426446820;
 0x17f136e334658510bf76430b18584795cc8bef7a11c33a61b5259339acca3353;
 0x2c03456c81a5e2e32aaf6ff4f1d5720677c920bce4adb99d1d89a60618da2320;
 0x1a5ed510e6e51803fd72011c2d6de4c638d51c6d9a57dee093680dc336f5d34e;
 0x1a936bc6777c2da71bce31f6fbd646a3d62a815680203edc66acd1148132029;
 0x1b4a61fadb468df53bf54dc94e9a1892f69e693a26623b6c768c9b6f08eb260d;
 0x22072ccc189a669fc9c1dec178dee22e6810db51fb07d2e1c4aba223a89f25f9;
 0x1970d123b4ed8e8bfb50c817284430e9349f042e456fe5d518f499c071f89430;
 0x259064221267af8baa25e034c726164172e8ac0889f3d62d29ef05acf962f9b4;
 0x2287530ba760334e46b1a49861dd542fcf4151293041712c8544a467a9071ff3;
 0x840062bb032fa90a3eaad025fd47a6353793130aa0b8626565b48035782aa66;
 0x1d555f3bbdd6465b30b7da0ecba9891624d6d041bb781264a89aa7b16d346c0a;
 0x23d4f39d8b478d9f3fe9c56850eb091e6fb14326aa5cbc9b2b0d7d87c283d763;
 0x2901b8a58d07adf7c3080c1a36cd9d70652aea9b07702d07ad0923d758cdb949;
 0x2d5fd10271ad1b7fb5f053107e3e769cd3509ed4d501be13cfa1421b5394605d;
 0x207c3b106d337e3362d760cc41cdb5be011fce738e5f485d2b46b93c64cf9b83;
 0x1492c0ecb1dbcfa1c6635de3f6b7d9eed6613a602d44fee471a9757bc7b42898;
 0x1644d335356808c816d04419514ff5ec328dfb9ddf78e623cbbb6b20b4ed3bea;
 0x2fa67fff02c7d3ca002389d54c6efc4687da94708f6e27d1bc5825f164cbf4a;
 0x21e1ca08175564b26d688202433c40a419bdaf250b832229f4a1f31e8ace5464;
 0x2cef2de85c29234f8717a47931f3e7e5d26de54c4009f0cfbed5742defb3bde7;
 0xf9101275c6d82c585bb03708869626a1b0edf857aa536ba105733f0043efda3;
 0x13d2ac8ccf60c75462050c8f441e1ef92d1b9a842c36bfc82ddff6561efd49b;
 0x23a7cbaee856630abc2b423732eeebc1ec3e071391d03f9c9b51351c67943e5b;
 0x2d3d1ee5d3afda1af49ea526d8f250430e61921b93adf072ac5202b5fd8d0f38;
 0x2c40a0792e0eec8a8ff8b91a36835ff0774e11e3f13120c7a6a0efbbd6ef1f0f;
 0x4523bf1a8f284c6d95b310dec2b54e0e00e59b571dd9d46b6201c18e1b56dfe;
 0xce2acb8e9575bad440cc92c82f19694f1ef1e5f0dc1dfc83c39ed80919709db;
 0x255e8b6bfcd73f20e6c4bd3f61ed3b8bd17626c5e5a843858093a7ef55eb1d61;
 0x71756e3a68459939af3577f77567bf688b996b47f0003c4509df83345846c16;
 0xbffe3446589b3eea6ac107b311307d20faccc7bb45dd5d6849cfdf7ebcec41f;
 0x18787bd666cffd2d76b9b7344eed8e34feb8f96edbc138486fbba2cd628ca4b0;
 0x24dd90cfbf38861e307d9dcfd5507b2298bf6b2618fa97d7e36b07690fa7c13c;
 0x1410db3d1ff17500d908b029552bfb5c44e3cad85b44d8b7070a60c359be7abe;
 0x114c5d80f6a4fac9b3962788dc0c542378352eb593c0cf88355d8c8032efdea1;
 0x1faae4eaa27310edfbc782b40c6ba0969779c813807d81630b192d053d4d5c71;
 0x1c6a9217a08e3d6b4961cfc839d6e8218df84ad042219111f80d068524566422;
 0x2779a31633b41cf11d988b3560faa03f2fef06ac2b58f88d89fc5f386f28b6fa;
 0x1fef33a133dc716d8477f6c00854b9bbbb087ad39704e2aac12ec22518ca42c6;
 0x51d3217b934abd02e647c9cf0f9642b2c35af886b2a45cc7b50fd3268175a65;
 0x23e2976b87ebf7b64a5a3aca1926bfb61744e0f4f8360df40500f479e052e17;
 0x266d4f55ce9e2183ac237c1cb82a138cfec9b415769742b2feb57d27eba7027d;
 0x220ed82038edb07e0f74092c809db76ce01adf533a42b51200f67cd58bada0d5;
 0x1739b7715b95db81ac96c21ec1fe7bf0bc6766b37d0572066766e34ee44500e7;
 0x270da5e7651be197e4b200aea12cc8b88c633d4086a0320fbd7b25ba6bb603cf;
 0x6f6db411a03949e6bb5c0a24f49967f1eb39c35eae012aa873ea0b3447d6f5a;
 0x117a292cd83ceb0d341c01e65590f4b38741c3ba51c0d717d273ddaae5c59cbe;
 0x263e482df03f958b16c2130b9cea9b74b47ee5d7f070ed5a6ab849074386f863;
 0x2803f7d7e3cbdf5be9306a32a90b58cbfc5490d1d74609cbf6384476b29265cb;
 0x142c7e2c2e91322de905b8420ed32d6ff157d64e792a38ee29cc9b316fcea3c8;
 0x147d7bfb2d88839714acc1080d935f9c289434d5d0af4772699bf4732c13323d;
 0x24bdce338ee348af82a60c960800094d5794d7a2607d5f3ccdd1fd4fe7b95583;
 0x10a0a7c38506d41a52e6ed0c4e14dc1283848beb7de73e0e92d4a065121c25e2;
 0x2f5162740cafbc5f21e10a4eaed36ac331b046f846c46a319b54d9e2206c892d;
 0x2c74369be037f8a5d985bf78b1e89838e0f7c1aa845979b6c5142747a0bc6b0;
 0x4523bf1a8f284c6d95b310dec2b54e0e00e59b571dd9d46b6201c18e1b56dfe;
 0x28580a3d76cb8ac7d4ded32ed3b70d34ba761e0b09803f10d1196eee812c8e69;
 0x19cf15cc84de7c87a59a44d02e83f88120bd3f7d1ab07ffac878a17320f4b2dc;
 0x21ffb716f9f4688f477d2b03bfb4c4f57fc37c75b46f85ff3d8da6e028263594;
 0x1c5e5652ee5c51f74663b5612d00e002ecaeac6dfb26d143e8f52a7b62c81346;
 0x309be74d7ea79ab9868e691afcd53fdd6591a5c8cedf965a1895229eff54a7a;
 0x8533bd365bcfcca44a62b4a3d7e1b0963ba990d5bc5577aca90f3edae8e319c;
 0xe7b927fe75b3e3322651fbdea1e01e7b5b9a3022e640476d39738a016e11728;
 0x2c044e77e1889c9f2efa9d217fefb1003978eaec9d8c99a494ca9c6bae1e980d;
 0x16ca28c9c6815d47c13eeb8a6baee797a2f9fe8fafccd65bc714c8165737d172;
 0x10e2a1c88ffa4f4f58ef6974b6f612c37755a1aac408008ab7b3b47160925666;
 0x2af08e42bfe36b6a795d78d34a4d4bfbba27adc10a144920d5709fdef7977301;
 0x1312b9ac40cedcdc7154c3a110803222b42b2b0d944ce7308a992074c0fdc257;
 0x1dc24b75a241225e913226bb4e43d43c7d47be4def03fd1b569eacf726f4ed27;
 0x13d3a4fe3528fbe42ec423e367bed051490e1b014ede6b776b07d8e15509d882;
 0x32d8f0cf21c697ffbd788f3f63ee8fdc1dcfd3ab649b39cb5e11a6bd2a24d03;
 0x28c7587692973d407a133b2fb5502ee9a51a4671568fcb05435cf0b5fbe69ff0;
 0x28e40378256e3cbd8a7f8cafdbed2021aa49f01a7d7056858bd3eaac1dc0538b;
 0x25d943e06d1e141cc39bf61f79e7af2d71ee93b361fc7237a2d9a8abc986056a;
 0x17081444189ad527d5b845af2a97df8c7a4293f485b483f9e8ed7021102f6443;
 0x1c79729fbddab541d2ecdafb93faac1db19b4de80d06b964cf4cdc81e1e6da71;
 0x45619b6eb27ecb55a5fa865895e4bb27712f4e95a84af9bd717b58e500de857;
 0xe2a9db5bdf2e81d036943df530d84e17424ec54f39c8039d37dd85ef65e3dc8;
 0x2ce50979f6944eb44498a1265db4d51ade51e18ca81bc69c0324103cd4116d6a;
 0x2a77de1a9d04ffe3b955ddb3ca44d5cde5ab83aca3057ad21d2275326fe032a3;
 0x17cc644fba9e3aa9ff2cb6b1386494c67079d7904d5d02828a84f100798d4ecf;
 0x231b0e5dffe1731eef0342d728926ae7c9d14cf32b1873115a3d47b231dff70a;
 0x2975aca67d081b04e4e00d824d5007a02f47891c5b0e6d74fe4bdc36a2c3dc35;
 0x12dfba0cbb1703dd03aa3c6e434c14e50ce09615152380a14b97bad4aec1a8d7;
 0x4523bf1a8f284c6d95b310dec2b54e0e00e59b571dd9d46b6201c18e1b56dfe;
 0x138e38994513bf4cda526bbb6d9a7ad3fa60bbb5b8922f3fa889be7f81acc688;
 0x233a737f744a6f8bf1fd4d3099a005b4783893e8203403271ac14116bb96bed5;
 0x1c8af617088b03edd11e2697f3f1d61aea527eb312465a7d1d97120547e5eeac;
 0x29e028abd359a281cffcf8e6def73b243c8c0b7dfc781fe16d85c9636647b689;
 0x11cebc3218317d6a3fc99fa24c0297c3c917d2c79953fe6b195043c1ef2a2911;
 0xd9eff7d690ca6de96fd8d2f757fabff01e7cff5f9af21a331beb5bf3c2b1384;
 0x2c10ae179ec436144d591b58693d48867a3080302df8f221f646d00519233ac7;
 0x195340f99f3142d58a8374368ba7b0aabe7551bdf4c84114c543733fd41633a2;
 0x175a317578f2686003214142b6ac875027c021572904376694f8469ea2da5c31;
 0x16ffe892781788c756069f60af49a1edaccddd1252b0add84fa3850c4f80002d;
 0x82ea1876cb380488c70f7cdc9cbf6c494a3dc6db449b27b2ad55500a9132673;
 0x1cac7d7d70279321973432ff45248a4497541d07c9a2b26eac2938d661eeee13;
 0x8755249140b336749da4930b6a82f6f7190eb05c7daf28948aed60049d00f71;
 0x207de9d69726515af8d068d0d26537798246579d29ba32be2dc2175e53cdd044;
 0x1405eac8634a44a35197a6503a005446b48e7f415210523162c39a8a8df15829;
 0x22f87c997cd1bd13a3cbb02d3d534c897528939d9e6714fe0c611c673d67d86f;
 0x143d40dbf8cd786ae5b20fdc9242fceb6224b64c187b36a7ca66489c86489299;
 0x2fde0b770674587f1be3feb619b4276125f643518ef715e694213e3134b7773d;
 0x160ea6110b10e9e3f0d14cacc486c0ba8f9bec3498024257ca96c50b2d2dec4c;
 0x15b8418dc1c46f3f546d70d983bc32122e40682185698f7f567f13590a1ace6a;
 0x20d9d10cbe767a538eca9be227274944094b9e9fc01b61b657afbdf6bcdff00d;
 0x104952b13891c92a6d7f1c5cba983aee4a3dfb31a1772d99192ab343d4e8519a;
 0x107209e0e414a0e40dffbdc7b52e2ae3de04e4385a8c810e92ed2bc2f67411e;
 0x1bbff156637ba8444d8679abf776687b8dc2462d876f17229f0d0b62b6eaf9c5;
 0x61f0e30d8aeca231af662496c1a4a5f4c6b283a79ac0e01bb677cb14fda83e4;
 0x3062b61d13e9c6d61471833d8e6b52f8669578314817ac28d650af7512e2386a;
 0x156a1c93bb1bb19c46f2d621ed100918d9f3194221788493be08644da83e4aa0;
 0x1366584ccaadb9ef95ec40f53e9cc7905204400b52fc6b9c0d21672fabf65753;
 0x4523bf1a8f284c6d95b310dec2b54e0e00e59b571dd9d46b6201c18e1b56dfe;
 0x727060f004a12682948595634ffb74c7351aeb401f8c16c31a333c8638cbcee;
 0xb43e5d620c5f01be5a5a3193bd458a6ee196533aa8fea3efbed64a83ef2ff93;
 0x711911f15ad7134cb9ff97051a0f73f346b4be3f9754508ffad823c11e60415;
 0x62c118ab0b9ee4f81d12e70d751dbff7d7047c895aec5d87b0e1dbfb311f9bd;
 0x1edc90b1e2679d7b61040b272d2ecf8d471417e3df89be715d5a85a6759ec37d;
 0x2bd026a17123ff82ef6a745e786ce3b69171c73f00a518889c320675a4a31824;
 0x18b9a646b8279f3242e40800752742093df705aefdc130e903026d7e6f37711c;
 0x2b6d003cb10653085f4ca141b8674a257140e4ad022a6e85a5681cd3f415f3cf;
 0x29ca967040bb4ef6fdec0008a3a1821b9a2682629abc6c2f37911be83c4d7b51;
 0x29c5fe585036f56f24bf281bbe3891d42d867ad8df031759f34586abd4341cc2;
 0x18250473c36c6b2fc023d9f980e9117d2b7d815386613cf518a5d5e1cd98fe8;
 0x21ecaed2c0849f445ce370dbbff7a0f4e3ab45444ca614ad818856b057d0b559;
 0x50f18bada3b7265d2194dcf45262069827248a1f68fccd800ff0c8f498fcf7d;
 0x1056d0bf8e1c158a403fcba81d1b25ed10ce7bbf7436a0f82af53417d7758da7;
 0x10ec2167737c5bf2fe50fe1c44e562a4fa629576c43c31c2a067d3f7e199aec7;
 0x78d695069c5a1d37c71299f3f5667516b76a4507a4320117ed26b3b6c05efec;
 0x302b34000b8a4c5f411458a6c12a335a1e0f345bd012c03e9afc62c8fc07dc72;
 0x25110107d94ba32e47336fb64a434e02f723e7a429eb23b8413ba03500c56e7f;
 0x239c9ad23c9efd9a7be7489e4a1240870a605c5b8e84021f3bace86281f5fe6d;
 0xa71eb71ed1cfc23167804f59bf51324c69d188602e732e5cc5a6e3f73455033;
 0x22f12028dd01cbb90141cfdf5497ad73403416e437f063e1ba391cc18bc0bc5d;
 0x1d2ad4ea7240a2f71841635c52eb7a7484cb97abd94c70bdb187724db31c953d;
 0xafc6833626de473ca08a5538a64a06cf9b604242f029c4ec576ba6a1376cf97;
 0x19e01b3ffd3d1c30017cbb3ed8dfd60838f70e001773558fc4a1c9818bd4c197;
 0x26db05b80a904a64db20297cc63e2d0a190ec9fcf9d528b9db88f7e079ca4d49;
 0x2d8286dfebb09365859e524291676812918ebcd2b5e25131884e71037a5def72;
 0xf3c76d71a422101870aca73667ead0b355e8f9a8009aa29941293e5cc105d;
 0x2c7142225dd5a38f329349d4bed6e06f58baa1c3dc32a6abd057bab3a45eedca;
 0x4523bf1a8f284c6d95b310dec2b54e0e00e59b571dd9d46b6201c18e1b56dfe;
 0xd4830722141cace7a3d588567117cd756deae9d215cdec0d2c55c7dd293cf31;
 0x826bf62570b5a5f61782845b349810b7a481153e7ec33bb3667e4a2c7ce4912;
 0xb74da59928d6c22800edc212200770147b8fcbd5d40217cba2c1ae784ac3c66;
 0xf5da0d1390cf5d4fead2ae4e463fed71d0b1d5095428572009022a7550864f1;
 0x2704d9998e1e17d5a61ea377b1b78ed6d7ec951afeaff523a406624a99447c04;
 0x300f822aa4b956ea43ab45b043adc967d41d2f7d67445ecce1bfd3259e62df82;
 0x43f2876cf4a9b33af023d447bb90b634b37fd6a432b920e2dad4fe1b9f734e3;
 0x20d982fe655c37b7c046a07110e57fa8649939e376a4fd1bb6bff3f13f88dbf0;
 0x21d6cba8317dac264ca383630b4da90214d803c503ea5520c5b44dffe2c138dc;
 0x873018963b4084347ad81b085693cfca0345ab963f656890c90882cfc5dcaf2;
 0x1e6176f2c8c0e6acb5b02f4e54d245f806b9fa7bc126b3435b79e5819fa8c9cd;
 0x21d440ca5e509e1ae0476ae546df34414d7abf9152806b4c799177b87b153f90;
 0x85ac321a5407d7ee948b0cad303f92751532cb1b55ff17e7267c0c9821bcf80;
 0x225fc6208bc12aaa5deba3688931a2bc8617e6b4ae76c1de0e85defe38e2f14a;
 0xaa6847f08b61d6fc7ea711789b76255d14b6ad7de89124c962fe57f534be98c;
 0xbb3bf6dc922baf1d7a9f555396d78f31cfc3cbbc534c016ba6879d02cf400a6;
 0x24118b406a39de6a222bbb99be1828f9d70c24cce6ae452b20644f3a6730b95;
 0x23f88043dcf501f06a9ba388b05f1c14ba29078b978e7f9a3aba55cb0bf1a7b7;
 0x1e9ff4d090215f88d9af53bbf57282d31a835a8a052dbb19b5c0b366b451cda1;
 0x26ff7979c38be718b092842e02cf124d1cec12b426a5ed8351b832385ddee404;
 0x62eed7ae94588f149905a7d148f763c8422e7e0b6bf5cf5ceaf80f7a0754fc3;
 0x2ddcb93912364f750150441743c32dfca87fba3bcfd285a5cdd854cc312a6d7f;
 0x1a61c812aa97e5dc63b827db3b987d759738826488abecce0592af6e7281336d;
 0xaf260c0175dc1188ad11222368b122a1f0cb5f71d5df47517f2190748f803ce;
 0x6c547f8d368f03ec5aa00693a85d2b4cc56aad88006aca1e46b1eabb84a5d54;
 0x15a040ea72ef3252816f453da8dc97a9b417011e9a65b0a8606248591e597199;
 0x2e0ae86bd039654fcbf8795450a36958139b3e0941b98778395b8ecbf3b40e84;
 0x71936ae5ec7e0ec777485d9400a8c414ce233e07352a9ce683ae41943341c9a;
 0x4523bf1a8f284c6d95b310dec2b54e0e00e59b571dd9d46b6201c18e1b56dfe;
 0x1fc8ace75c85e6d3a7404fe02b03139b6a67dcfe2d14f7af11cc30a2a8ece33;
 0x263815b2a80b71e1222801ac39bd44faf23d0e21d2f31fd213d300689a720d8d;
 0x1a91fe38ad898189e9dd7ef77559185a79d80481808f4044daafed03742d3ff7;
 0xb99a6192c5bbf619624d1c7cc7d90930f1ffb79a6d4cd145bdb58a85f35e324;
 0x29df5b722979b8c9c63743c5d997b720d1f938edefd5a7359651bdce60c352fa;
 0xeeffa5c228914c03da9a2eb5fc92f23254bcde82c459c81266223e6fcd3d89c;
 0x2b3647ce374ceafb0ee9c4f5ed4762db7240d45a5b01f3873f2a4c8b86a68be5;
 0x21e2872db7718e97286c2239b5b721a58d89ca37d43dde81d5cf049477dd1c74;
 0x173909ac99ccc3ecd1ab2fb89246a648ae3abbe251ce9c0160bca5712c0626ad;
 0x2e2fd250ad31b0f543e958e16c10b3cc9e62e52c1a40ec5ebab4061d3880dd32;
 0x2dc7cd826f2f2b963a180b5a0fb1b5d20d4a7cbc860679267142a707c6ba48d7;
 0xcdf628de6b0bc2b35d3f9a0b2cac4cad27e7e1966c39af983d63e1461592bf0;
 0x2bf2f603e91d6eeeb104ac9141798accd525fa3e241b1182753d4ff3f59b1630;
 0x49c9676b595755be2f328863936312442c1c07504c5bfecd793e1eba7c3f675;
 0xd1fd4d6ff542b060b3b90ecbb825f0f890820144be4bd0334a2eaf8339c9af0;
 0x2206a93fd04efa7e79130c0aac582fa50c5ca7dad614331281c3d49ee4c1c67f;
 0x1b8b1f32ab840765cb6250f4c9c019d994fa5858c67bd585a5f4a7663143ecb0;
 0x55cbd5d71b787fb96fab44c8c6a1eaf3aea505c675c32f608ae0b6ae2e71319;
 0x24a63962fa639928e90311ce846f99b35213568b65cc1db5fa65555a0141ea9d;
 0x2d41835ec9c8dc848bf62b784a9d029cf7632369d3b6e9f6877c671495831bc6;
 0x1c3ebf1cde47404db2c523c680ea3df60668ad37b67fe50298c632b77bd3f625;
 0x4d92032856d1eb29140d9825a6cffcccf00f5fea91b85aaeb68d47391a67f46;
 0x13fd59cdc2da8766343e9dc78d0604c7a453c4a4639f1e1f66b154605dd00cd4;
 0x2d56a2d39a3db620d7b172bd74553d09cfada80fe7b1f2bef3fc4cc115f76123;
 0xe8cfc663445dc81cd06b084d36c85d946c6eb49871add263ce14f2b477ad27f;
 0x2233e0d00be5b7a77da192a5fdd91db5f196705ea0754e4bd1db5a357b335092;
 0x153dcc887f5dca8999d51ae06fdda165dc03e01c67bd8790316bc465ec4b961b;
 0x1e3ea34066a170114f0c76573452033360809012bb9ae4c24b6c1fb476d5d5d5;
 0x4523bf1a8f284c6d95b310dec2b54e0e00e59b571dd9d46b6201c18e1b56dfe;
 0x6662bced08b16d3d3a50c9dbca0743d66c2b0d5060c68983d8448ba7e09735d;
 0x207357fa70e47358e4df94e0fe2860bb2ade565460c2f2ac9968718b512fd761;
 0xd88b7243e4ba947985ab06738bfdbcd72be75c0539fc2c65e016612cf48a0a8;
 0x29032f478c7b5fb111f8d32720abc1fa050676c58f783bb6740b5876211527d9;
 0x1f58b00a5be5baf9e1da120d8dbc12a767e304eb63c0c05528efad2b95f6d010;
 0x5645d027e203626b8a8c15707cad7f9954b915bdf620a343812470c63d6fd5;
 0xab572420dfe8794515a8ff4fe71b0838d46a42e63b488bdbef2c6721668758d;
 0x1876c13f9de5d341e254b3d2c4bc8c272e270b58c863ffb16324a178986dd709;
 0x21ff416c00f6e478e470f77aead4decff3ab847e058e66bb56b1c75379d67d55;
 0x104056d5d775740ba150f6807d251607c5072fcb6d204b3a92646b76f97db4eb;
 0x2859bc2f280545367b3844134b23d2fb6ca07c51c42eec18800cfc795464ffd0;
 0x232f777c06ca70171d09129c01814b57a685224a3a752deefde04487f731dc54;
 0x2cab0c414d906b4cdd83f08fcd68d3b3554fda8f17967c89d0b281f9e6e8085b;
 0x291dc030472a4633fe37225419e9e26ab406b12c6c78b40bb17a9ed3af85841c;
 0x11b3be92352e34d0894a108302d097e94aede2b931b40b162b6792f127d0dd51;
 0x1821450cf9950eb2f0ca14ee17385735c0c0f6b58ecfb4c341732c580e15289a;
 0x2c7185a2965a3dfe86d2f88a14e66ff3cde5f1a4072fdc5e903a5367012d6bc8;
 0x19f8b88431be608148ecc8a862b043c66277c6d244d4bc9b063488d470f91c57;
 0x2e07597ce199e34f1a907e135ef8c7f1d43ae46459065f5ef56dbfada7b14086;
 0x20dd50883de922f31411aa269a38a809f86ae985da0dd572a02b0a115e57317d;
 0x1deb58e4db0e059b5e4233a27f3ebfd5c56fb7c8a2e0952870ff89bd985b7fb8;
 0x772b8311e52b960baba8f9ccb8d74d520f5653608ba810243854ca306e9c5ac;
 0x26508ad8ff73d70862d1ec04e406f165c53c04a0c3e466a11a2456656a2008a8;
 0x2e03dc18ddda2eea605f357d82c0a7a9e05f74d078d0d940a0e7506dd7dbb2b7;
 0x2651122e5715b7d5d0d396b8b0a6b3b219e1b5c95a0532623d9976330dc0c7a2;
 0x1d2fa1a7f55da05e2e77eb2c7ce09b4f4c0f832722262e7e57108223bf2e4a75;
 0x20991d3f8eb785ca08fbf1695aa09c0664465858de5f63e628cfd6dff4dfa7d5;
 0x2ae4c4986606935874c81b044f450a6ad91c1c6aba4670091cf83dd34d8bdd45;
 0x4523bf1a8f284c6d95b310dec2b54e0e00e59b571dd9d46b6201c18e1b56dfe;
 0x22d5dcb58b751b33e61941e034ec6a5da20162b44a67f2f2c2a32fb2bb19efc0;
 0x18a2197cf988fa8737f9ea1f8f7cf8e1b3da3a130177b80c47efb5fe8ab3ba89;
 0x56472b01f8796af3bb76fc84acbda7f174f54c3129f03f6b36d80375bef622d;
 0x28a91c2f74f72ecbe75a6fec418b9ff6bf08c731ca114d6609478e2a498f947c;
 0xecd04c63ed1ee68ae94d51633155868402dac39e3c8383e8f0d45ffdd1daef;
 0x2865c65b845d8061dcebbc8f2e91762a9af0a69c4d7692d60e3dfe98400a40d9;
 0x2f50ae99cf9753fc9a1344a654574dd7d4bec32df7d1d4b1cb4d03dd1f7319b;
 0x26b34e635792eeb315bf2e03ecfb8b00f7b6bfc137e759436fd0e5285fa5e8fc;
 0x26cb59e555d2111646327f7ec9cafb3fb4344b894d7746069794c491f71b5f82;
 0x165c43eda77147c1408da412d24ac1314a327a371d2f6c0e3dc2c7e956e96046;
 0x172edd07fa59daaeb04cc4a4c783027401ed8b47fc6fbdfce05543136805e1b2;
 0x2bc36f035f7bceca4001545d9fd98b0f2eae858e5c4b0f0e219121591762b378;
 0x22d96b2e558884ca077f0fa9c41a38155875af1e91f5e69dded36499c5786cd7;
 0xf1146e591fc72056c2fa40a35b202e6ae29a5e6d91180713ccf8ebdaeedb917;
 0x29510d1143600cbda4f235f0c6c480f436e20daadaf9461a032204de009d6fb4;
 0x1dbad14882314499c14316375e9b8888be4351bdf3b96e2651125fd03ca89a29;
 0x19d651b0c567b6507eb6a7202081fb6311e8398a80d53195a5b327b7e5810427;
 0x196d972248e180296caa0f943f4a034746a000205310b155fd0071bf6a20341d;
 0x2e823807f3a2c2db81181bf7761447252307c8c7e088f9a470c257ad83a1fad4;
 0xae07a00e65e68f06fb34219cf2f0b819ea6bf147168ab5f982c9513a661e10c;
 0x1f3ffa4e4b5ac02fa89072fbfa10d169ff5cf382ed54a86b69fe5ec3b025c3d4;
 0x94323f9b77a979d42a49cb1fd0f4a5ea253e908b0e96f47a308e44085f0bb51;
 0x7568c62660c919b4295dae1e761a5e9bd1ddbd05f77de4977e99ea46ebddc59;
 0x1d28e05e1aee78e0a9c10c97e01193eb1771c3dc84ac0af0b7e9b7a5df35937f;
 0x1479d6a6a967e7a7672a01c2c541bb92b677308c3e365b73349327f39f4593e8;
 0x6872919996f740aa2559418c0da042d15ccbba1cda06c95daef9f0ddde4a6b;
 0x587b0974583ba3b84934a500bd726018b08125f5f007d01856fb2c124e00e4c;
 0x2ee0bbcaf6798f8cc107dc4ec3157dfcaec549f36a87c934a83f1c080035adef;
 0x4523bf1a8f284c6d95b310dec2b54e0e00e59b571dd9d46b6201c18e1b56dfe;
 0x76373d256d68ccdb201590f87f661a13d618407140b6ec21bfcffb267e0dad0;
 0x13a5be09677fa0af3fb23e95428b7cf9e7b8276baebb1a39b87a1bdc416b270f;
 0x227a7259c3b2135612d12638b5ca5973ab9d6aa6d6a335781d81821fa8be02c9;
 0x25d96493ac371c2ba8dcdc9bf29b1b512f43aaf38fcc86f17e9d44d59d870cdf;
 0x1ec1120411deede740e7e3481b96ce1492b47232b208f15afb2127b41189afed;
 0x12067c9f5be28c0974e55e19274c65f752c82287637ffc5104b35799362b0f0;
 0x462ea3958f9c42d0b2406bec8e38576c88d964597ae61f1f07d811873c464db;
 0x20450babc7a6e637d32d8b57f218412a430fe087706d88eac441d6871f5d639f;
 0xb29f887572517d826f977c371341f2819995e65a2929c078cf4a937dc68558b;
 0x27d93349e2cac8325e4006aceccfb9ab165aca3895697e42e23b78bb1f172a54;
 0x1969ee0572799902a937545397b4fecbb83446841ce8525b714d765fb25d9028;
 0x1edebdf580772f616131435b17c46e0e385b3ab83494207efb4d9a32f4667bdb;
 0x430dc17c3f1957758e57ca93c94c5623073e5580c28cabafa400c2e5eba5fda;
 0x1dfdc9b2152615a4dcc8b252f17d97b8998543e84b9b8cedf8d683d917186b64;
 0x48a9afbd6c11ff4a680204e895b655e004211e495f2bc46dffec598bf40ce49;
 0x2511be820087db2191a273650de721dbf7abd3ce15bc9e95e2a7153443ca7fe9;
 0x1b255c37973fada56a1251fe07d617ce802b4ec2f60a002e1fdd9052090d3884;
 0x5c36fe03574074a04ceecbbcf02d231d9d868aae698b20582aa556e6ee34bc2;
 0x14071daf49fe401a508085071812c378491178f66712eee8f1cd7f611f8632b0;
 0x1e8a45f66dae3bf77aced336508d0b566ef1aa9d582d9a44b9028d2e1a5c28a2;
 0x3470d55418841efb8777bb16984dc9d71ca55b601c6a9acbcc06dd8a3a4e4b1;
 0x194cd0a75e5edf346e694e78b831d42070d93b69555b692da6fb979a78afce0b;
 0x22d1fd9d50ef28dfab1c35553601cebb2dffe723e366e956a2d9f2001517b92b;
 0x64a916906b28a8a1a2df80019b67d7e40dc686d00333fcacd63ccf129d1e281;
 0xcadf1f120a7ba6a73fb4f5980c5aba2e0e44280b5c9478f5d800e61fc39c824;
 0x11783cca91ae0cd06b91cacd517e51d4f2e7fb59202993dafde30ee181115b17;
 0x1563d52bb66c227361975dcdfcfd8f6bb9749f86297a5bd3a6be74b8d5bd2bc1;
 0x2e3cf2cbb16d4b6a76f171d80a9b92c4b8324721e6c3a29b77e2c9727863314;
 0x4523bf1a8f284c6d95b310dec2b54e0e00e59b571dd9d46b6201c18e1b56dfe;
 0x106cd44586872a1e98d029a76a334797c6950fb72f241e344040ec5d1e766ebf;
 0x267c81eebd4f9bec2d7fb13ae6ab345774192825ec38779a8883265df4b743b2;
 0x5cde6fbc024c52d0dd9c940b9450547804aa6aae2bf06ab7bb2c3946fb09aa7;
 0x1db696f29132c9a065e392e606d3bb4110213b88b7125ca0157a776212418837;
 0x269b78b6fb577d3a5463b0b88bfa91ad56c1f7768b55a6908120ebadf7faabfb;
 0x1e32a4b9639edbd369aeb322109c919476aa85e28c2b7a8a111f9cd906bdfb31;
 0x2387b1982e0083a0621b4305c2faf4aaa0abd33dc265069e9b1d59673f5b1816;
 0x16f2a181e0d79d0a39169a1c9389d0b67e50fc5ecd2598d2d875ccbafc659ade;
 0x1c418ee3dafe2d97e5b84ecd7625b8598c7323e4beaa809d77cd7a3ab52f5c57;
 0x235d1dab5f72d1b0c0cad82e5f46ae1972117eba7612ae0581ab85d4dd9b77de;
 0x11eeabcb505206e74ddf6a4417f4d6c302d843dad5e5c1e536004e100f729c4;
 0x14b4f6ffdc590f859a491af89cdcff26ec963551676e4e109f333c34a0b3eca3;
 0xea3a8bd722b025559ae438ef85f1fa8364cebc831084a3129b7498fc7067aca;
 0x26a63daf3c27700bc4e5a0c13c12a234e8a13dab66deb6ff2a8b805b107a4518;
 0xdd28ac1c88f9959311bc53387840e131726a6ab9b7fdba12f403a3095034ae7;
 0x1221db6f8687604bd35fd586e0944a36880fdd1d1da2b771fc06bc80480d89ba;
 0x5dfb8aad4d6b89619e41ed02e593f0de05dde06b6aeeb1ee8b89bafb087234c;
 0x10ba8b3d427fe867422065e1b2a8e0d06d567e73717deaec3438fe36b1bddd55;
 0x13cc217fbf1b60972234be03ee877b96d287e30fb869bf816662d2887d2dc68d;
 0x1031f3acc4288235e55b67f3435fb1915cba9ce0d0d1f12e0e602e2d605497c5;
 0x18ebdc6dd67f2d5853541af16af792756aee1dd1132d3a6b1d0734db793a46db;
 0x10a4bdea8bf3a0440f456c507069645ab3738171f896cfe3b5890c9a0abebc0c;
 0x21e5b46f2b85977f8e4c67f37c30ddf03556eb1b56d8339f046a7d1aa8d9bbc2;
 0xa8735e02e11c8a1e0a56b24ebe7a39223e2beccae352597972fadd8f4fd3abb;
 0x27d5d5655c3a948d91278714a40fab8da89ca600e748a238014c98b932609fb2;
 0x18b4b6e0794cf364c6d4b5fb44a2899d4ab038d6b15ed634c6c12accead7e73d;
 0x1b89b8c9a5250e9edb3b9fff6e54be5b8c173bfbecb8eef3847d8718de0fe29;
 0x27a5ddf99d9c4cdc9643219a9cd3e4f47f63a581af9a499f8e064f4d2c726a01;
 0x4523bf1a8f284c6d95b310dec2b54e0e00e59b571dd9d46b6201c18e1b56dfe;
 0x237b081a68e30cacc4213ba3d2b153672483ed173125bad4014448763d2dfcea;
 0x29af4e6cae10dd99b672d741c5034f91762b99be844b0a938e967009578e6ccb;
 0x91bd6b2497eaa902ae05480699f34734c7f74b073af6c4c559bfa3a33d4e6e8;
 0x2f7f9c0d61cb36e331f2780b0edda03598067caaf184dfe95613950f8700360d;
 0x244d6e7fa5583e36d41ab75c679191497f27583a7ea7f5cb4e87feacf2b4dece;
 0x1f174e5f54c883afb9ae5b7e955380190767072e59db3a1e1b90d7035521359f;
 0x97f23268924c4ccf4659499274ee72a1a9c83e43178454d49d675f4e5b27150;
 0x3d2ab62fef78fb69b7049c41e34e6f1870662b336afbd1518ba776218600fec;
 0x2718711c73da1e256d1b5c21c6b2e5e43e2b0039e86f78fe5790e04b3c7938a6;
 0xd396383655c27ca25603d88e3d35c3dc6334506a93d6909745e52aa7854bd4e;
 0x1c66fd746293e23154ab298c3e4ca0ca14980c6a0a3cbac979d4ed8fdb9f692e;
 0x15708a52c8abdc860d066e0ab2a6b5b5cabdf1301f676b07feaf5342a971caeb;
 0x2b821cfd139e0da4c55cfbd8b67a7d7a4e7bf5e3ce1932b96f6701fd39e926d4;
 0xaafbee598eca5624a31b7f40b836023f364d41b6b24d0d7832eb180a60885e2;
 0x15c92eb4730eb68b229bb67da73fff3ca720814450162a81d1a7a56c83c3fc7;
 0x2f7200c5afe273cc787b0add86e9e0380db97cba269f59d0fd264b9ef144e839;
 0x2eac5180790ad9bb069b4f7e1842ae9fb0b069216c9b412da6094e2a69572126;
 0x1b7a0422eaf807c0c824c511a7b52be353c2a3789591deba9bca9a99e4d92869;
 0x1662fa1c78a1621b5bbded5e9e5880a86aee481fbc455b3849d16a37cdeda515;
 0x28972f5963c0ae4ab2b03cb80b4ae1f1dbd905fdc3c657550648bfefc4c719cf;
 0x2424d119a1299933b209b85d4af1aa89f8523801efeeebbfcf49c1b6f95ac740;
 0x262a05cbc85dc177e174047c94905083a27b4d887f8050c1b98a07608ac8e373;
 0x89d1b0af58744cdb06e1c0636306751f6b6ede06527eba770eabb7195465a93;
 0x26d8b08764b7240789d927ad67270da8521ffd23995b67f3b25de7fc60f033c0;
 0x19c594f452b69d9aba24aea1f48887b5b2bd351e7bc6984e56c346264e5c5f28;
 0x9a984983ac12405239b7d71d7e94ab74a5d7e23b3e651f61988e258147f5a61;
 0x2edfe7a5c13ee6fcf27ca3a98d230c3158dc1eab9a12a734e78e69d7bcc5ddc7;
 0x190ac6e66fc0244544a3780ae6c5a0d6e56894965b345a1b731cd96c89defed1;
 0x4523bf1a8f284c6d95b310dec2b54e0e00e59b571dd9d46b6201c18e1b56dfe;
 0x24888d5352a17beac4d1196b9ba56563192a21650b6e8cf734abbb5dc6fe0b86;
 0x27f1a77d912fc4ffeb051b44845cdca1360b3dff10f646cf4e2e31b0b52706ea;
 0x281d4a45a8beb80c2974562cc98785b37551ca4258c7b7292006e387b20d5f49;
 0x1d06a2f6b95d207416e97b18e0a33aa504251bd5473313ec4ba4aebdbcac8dec;
 0x11dc2b5aac6c6b58904b8370d622f408d4b8a22a54a59f060a9336509285500f;
 0xf03457b87c6491c043633bb8f90a9dba8eef6067f86926dc4df4a6145b9cc81;
 0x17982901cf92be1b7f477e61747a5450b97ddfe41bb5d7760bd1c25df17eb204;
 0x848af60d2939b3983df6d9fe56343916aa046933c4517a6c0c29025a3da1781;
 0x1dab170558f1782df01501d1a810d1f491caf3a03a5563c8638eb6649d852272;
 0x17c31798bf48cc0a63986b914236ba21a04dd2a2bda0afcf15213df56c46370a;
 0x2ebd4bfb0ae3e1f540f31fd15a70e59de4ab8ffacd899d56060ba394e224ccf7;
 0x16c3ea32466b179ebe57bcbbe97e3a7f94b0a4b3e091f15e3aaa9222e8b182f2;
 0x157740e3058872c28ca7331055f3daf8b9aeb36e9c2d7d231f22171c6315733e;
 0x6a974a75d941a54412814d68e6955b7f4da2b281f2a9ac426afe81b98ec27eb;
 0xfa950037d21d72090c5bdcb8bb6be911ff4a359f3e76ec625c64f1202bab37;
 0x19065585b553aa2649a420625c707e61f7e0e70c753dadf474bda8fba0354fd;
 0x183bb2b9d85c3a9368017cd1e1cd884967c0b048dc243f35b6813af5b279872a;
 0x271a9d19b99115dff27a86779104a54b252373c18105cf5f86ab5ffcb2a9942e;
 0x284fd24cc3cb45ca644f15228d786fb82cbbf3d66f1a276ccc3a1182af4fc1bc;
 0xe62b392dc27b2b80a868a9501c9e1c72410bffa12b77732ce1df084ed0a7a30;
 0x265311e1422fc3e5cecb4158eba0b249404842b16e8954bab3d80d6805fc4f65;
 0x1186e446615d83a940d96d2286d9b411b62697864531172f5e8d3d9ab6a5f9c9;
 0xa22515b9c7fdeadf64fb896271bd8d96f1f53bdb32ddd9be7cb22400d69ab77;
 0x1343f2ea91b46be725baaf77a092d6b790c1429ba87a3d4105e005b85c901551;
 0x2a58da207ab04101d89a09c69f8d8309d8e8a938deddff70e2eea30f4c884bf7;
 0x1bddc742015df54718d5a89b181f3a0110732b0ab1e014f63202f6d9eca2eabf;
 0x301144f5830574650e6093a4b75b9a34b59066777ed21d2c008f2636177e9b61;
 0x1ef4af22668248890aa7ad05b07462d777b0f09a98d8c17d59ed2a127fd2c55a;
 0x4523bf1a8f284c6d95b310dec2b54e0e00e59b571dd9d46b6201c18e1b56dfe;
 0x25b20abb9883f59516afd1b89f80c4b18be2270c4ad70f7f9f9b9188c9809ed9;
 0x27c5f600e46a854a26efc7ede1108cef8b607dcfa047c259ec32934669c1d155;
 0x1fcb1b54e79f2f06aaee7955186d71564101088f13837f11bf2ceaf9393619e1;
 0x1d24da31bcb08eb64df9e69b729ab135cf1b63cb23c4c8acc073a9d50f33bb79;
 0x21c0a2bf8c0ea05f8f319e57408ec4ca46f0003325efdeb8c84b23026d9a8952;
 0x1931ad5d7ab126465234d8fa1905de0f77eb5858758e6c838d748f23508ac1df;
 0x17af6e15929f2bca918d404d56b4cee0ccd8969195f2f3edfe56dbd1937baedd;
 0x36b2cc2645cfadcea80c47cab8cdf6eba7fb8fb2bbad631a5cf24fce6966854;
 0xf10bbaf98e0b1ce2cca1977ba2e271b89cf46933d4c7a797671c8fb0754e10d;
 0x1ae0f9bb7b72a3239de677048151e6dc40637e6559d726158debfe779a72a708;
 0x1912fe07ee7840b055e68317eded61b0283418138b9fa2fee286fb999da2e6e8;
 0x24a8a1af47ef25f18b39b5caa36c1a6df571d3c833fc1c54fbedad560aa5571d;
 0x2d3f665ea69116d266057ea4e9ef5225800a1cb2ec6b7d6ba9f3edbbfe1faced;
 0x2c5b2cabc24bdcc0e95d2e54c52c0fd0ceeea439d8fa83c0036feee0e9730e3f;
 0x1a79348c882afaa9480c28acb01547d816148bfb8e70f22a0ad3a3f534bc0452;
 0x3942e232a30d4a941a32ab45958ac49b08b0a8a416ff6dec7edf4f0dd16b8ff;
 0x24de94fdc7fa872eef8ac471ba7719d5f3f534cd988248c154ee122ec2090ec1;
 0x13af3a6a5530327a659e6bdb0e3f2643db75dc7e9eb06a5c139d84a2888aefa7;
 0xfff230d63a7ea1823e5c5eb49fadbb46522853f0d6eee45948d326f54571ead;
 0x1f67b3c311ad5eee7495b1e9ac1236f8acdd8dbbf5b20aded3c3947baa0d7fc4;
 0x5be06d2aaece5cdeb721c87ce053e8523c8992c91a1884edcdd72b96e8e448b;
 0xf3b86d20e5d8b37d9c47c0a1e0e5654edd5bf9fc4202959848cc3951f58971d;
 0x28047bfb585f17ad6e7cde5bc033d8072f3b3e90d63b884df2ea6f3a24d10603;
 0x1186aea12da52c270bcaf4bd0f87943cf5cd9ddb63bbbb2d7f34dd184baeeed;
 0x1e4d65e0bac14ec3fc7970af0d64f4ca9b932012dbee59b3a93ee42b8e52e06c;
 0x265d09835a19ac5c29f4327b9df3f35988ca8893c1ca8813a1f92b555550aa0d;
 0x255b843c053e9dd9b00d06db176106b632b4ef0e6e345ed96775e4ae313dae6d;
 0x1cdbf2d9c9e1f4099652361d830c6d691ec5eb951ae3164acd715f49aae612a2;
 0x4523bf1a8f284c6d95b310dec2b54e0e00e59b571dd9d46b6201c18e1b56dfe;
 0x26cd056174dc2477de6fde6a95b7805ed343877ab35f7bd16afceaa9771fad20;
 0x286c63dc377caf0ca4697164bddfd29a79aec07b52ebe4fff1a4601bf3178ef6;
 0x4404a2d97266886b3a00244a049d2232727c70f864afa44d11a2d37ba4179b1;
 0x2d7b33ced5c2aff1ad6b4ccd8482024effb1dfdbfa20ceb1f2d59aed40da523c;
 0x1a5a78c756a7ee0cce31b132cf6752a1fa0e904e2d6dd9ab3818fbe9426d24ef;
 0x26634b7dd87a8c0e9878b1383582b9a3bf658dd13c467e52804ebdb1698044d1;
 0x2222ed015dbbe37bc2578814782740abfa00c4118dcadc8e6a656587aa25bec5;
 0x243a463d1befd0cce1a46b772f3d11351d47cdd86ff8e0a6e6b8d0f8c7486da8;
 0xf4a9dd0ccf52f31360db5fedcde0405406d4ce2042b1856c7c14bac187ad37d;
 0x25c6e507371aba88824acd8974ec363c21ddd450a13b130f38eacd5dbc5e8c74;
 0x864d7ea740ee93ec7d2ffeb7adf4a03174c89904d9c33a683d8897eaba353a2;
 0x146cae6d1bdb0318058f424e893e0892b0a1070de370a5f460444ad2e535a920;
 0x1ebcd64df7ad6f0e1619e26eecdfe6e2ff1e69210578cdc6c052e1451e9c17c4;
 0x1a7f76a8b9a868b7abf0bbf29992d82728ad277aa0c48d2db00ab45c7a77bfc2;
 0x32b7050fdbd512fdcbc9e9f530c139f120df1b53f26240c01dfa397e227d62a;
 0x118e701ff219612ffe9524bfa2e515bbe11f2fd581a4371f18d7f45f64c7aba2;
 0xae4dd0aa671c0a3dd08f394fc0eda68ab2beeeb58c6c94e60229145f0869468;
 0x187cd95af561e161bc1a2954e04a82488721c80e7b970b51a11e318b43e3c340;
 0x13c74e83abff731872630e45384b122ed9fd07176f336d1c3e3b87837adc1c39;
 0x30392808edc88e0c24a9f0f4a384e3bfdbb65382fba12b4e7ae01b712b5073e1;
 0x1bb68781b9f841dcca210b93a99320760e7f3ac43b4ed9d621fb50ebc3440467;
 0x514eeca7cd002d04a4716478bf62c108b3f314a288be687fcba7c6d5103ed5f;
 0x1a4c1caa217b647d099e3c3de03d9677dc2398277856140804f95848275cb05a;
 0x1959d1f1414c9a59879e9489315264b7691dacd96ad16f890ebb2ec8c55f40a7;
 0x2c0e761217503c6c0b20014558eb78e6314e607130844c97ee67dbe1940b3d4d;
 0x248c9aa70622ffe24240bff18d191276417eff7762d96594e4fdb9d6803b9609;
 0x21dba9d46e89f5875fd5e925eeffd10ddfc09ac71634e69c61e9805bd0a07d1d;
 0x21280806713dc524e7eb2c697ee2e197d89bd2e73f1817609be21c35dd5bdd5a;
 0x4523bf1a8f284c6d95b310dec2b54e0e00e59b571dd9d46b6201c18e1b56dfe;
 0x3cd1743a3de44e9a172804c7b159ec17a83d2ad838f9a51f5497bb5aefe9666;
 0x64682ebaf66d718813a4d06db5e8bdf665dc8654df4af96578526fd7eff644c;
 0x27bdca50a989caa4dcad2f45d2bfa7e6d455549753fb3e8c4c3ff2553803b024;
 0x263a2119f3bf5d5330c11f3036d2521e40f391da9efb1879bf1af39f5f4dff0c;
 0x2df2f13f954b1a7cb58e84ca4f3e2ab7d0f4272b559e58c7dce7ef229213c5bf;
 0x2ac40d567d483e8d671c8e194075fdb2ddf9ec51a174219e8c351dce02d32d52;
 0x159b9154fbbcadc7209c9978cf5783aa8a47cba1a729bb297182aa674f7fd820;
 0x1a2295de4f8dc401aaa4a2b1a83d62fdb4828ced253dacc132ec9d5186e1e2c7;
 0x2404bbdf4995ad241cba1169ca4d85d5ad276ca9d009081ee3e2b5181d46d29c;
 0x6fd221e32b98c2db6dc1602ead395001edced38761cf45ebbbc340ea35cd7e1;
 0xaf3118afd7dcf599b5c65b5a3e74a8ed04faa2791f47cd2cce3a31e541032;
 0x2b2dd6d065365f0b808bee0a2f7ec63eacb1990cc04608b08549d65024113ad7;
 0x180941c6fd6e1dc8a0aa4fd86020ddc4928884b68074c8d78e52764aba6c9f9a;
 0xb86cb785671c76300f9e6d4dd23b53aeb9e2d5b6d209f966986aca09ec59801;
 0xae841f0d25bfbd009e0011201b47e2042ea8d961248d90ef9d44a360b317617;
 0x1b2f66bcbdb6fc59dda5f34ee11c654d0f2dec29e31928d5b111393c8e0f943f;
 0x2f16b66d80614604ae85a13440d46bba9d09d98d5161c878be67a0dedabe3aff;
 0x196328adca8167c649b987ae985e9e54c0822077188b8af34b3c518dc21416af;
 0x107664f2d3f3bc3ed01013faec284477785f08e9932b4226945efca7fcf56b85;
 0x2fc54bc47cdc7f7146f9b81462c64093374c71647d4ca27439406ae6e6f7cca9;
 0x8779b3359720a0f3e0898942f611aeae102f875627f2c973c97356554911cc9;
 0x2e30be5c5cb07090ca3249386926194684d1f3d2d3ddc114bae2bca9d4a07f9c;
 0x1ea45a4f0b12b578b58600b9d085aa8d9c68a583cea665805b9389f8563d53aa;
 0x1753a308b286260ee6ec2934cbd59f0f211c11647cbf22f6bf5fa7c154c0f577;
 0x102ffeb8a2a94fcde9001e08ab603aa8975edc2465d6de14b73c14df40d61db9;
 0x1ae8a9e95ee69c8774f8d3a8ff484788ab272d3d174f526a107b2c8ac34ecd95;
 0x166b84b5e6975b9e8d7ffcb7be641fd89c53d1b7238748e85f32084ddaa3aabf;
 0x2b2e47acd6445423d9e61e96965da98e206b611f52af1d13becb4ce4966e1a3a;
 0x4523bf1a8f284c6d95b310dec2b54e0e00e59b571dd9d46b6201c18e1b56dfe;
 0x10e7554983562b62de4660b318bcd5324003e95edc617d6b1c23a97b93802e4;
 0x187483dca9aca475f85b9f8cbd78aa6048bd2c848caf3973c8feb07573883a99;
 0x2c13309dec41b4df5d8fdda2b063e8264c35442bb120e28de7555569ee771f8;
 0x11710271c6783060aecd410a60cc5c96641c1cb26591b21632914aa9fd94eaa2;
 0x12bbd77d7be4e06b77b5c40e1f9888054041bdf4f8af2c5378e6386337716b6b;
 0x23ee2c9a0d3324166028728c80d60cf0e21a7bd9ee90817058ad3b87c6f28cc9;
 0x58dd3f4009e8ac3fa07e285bbd7391c2dea81930c732c3a769c9c9249084d71;
 0x128d27c4805d2365d84c754621ca2d1a82297ea43dbeda87c0baef506c851079;
 0x20f552e4cc3a62cc2f3eb768b69d8549ef4c24d2887d7de0550b17ab4f7b436d;
 0x235730472fedbab358bc7dcf25b1d0befcc70746de99e78a6dfec8f626c5a9f8;
 0x280c2ed868aeacb6be7c9e773b08c56f43ea871c01acfdf9ff5ce9d4443d3376;
 0x1bc74fb92afe9db8c0da68365326cd9944db988b65f46d032989326fd901e923;
 0x2d9c89c56578fa5031afd1a53d21212f1c3ef24cf7076460ff533ede5fc360;
 0x1e2413f3b8f23a2304735feb3fde9d2d0f88d8aa72c1c60eac921588bfaf69cf;
 0x53a4cbf4b57d882174b8891d918af78b40a7caf832c2e2af02b8ba5bf5c1cde;
 0x5e736b9e5f8a1b93fe3aef1ee0a69234f7fe62ea998a9f2559f650669d76dbd;
 0x1e88d8b3d140ec659d6cb33736a0254e178fc6c0c37d2fa5b36ae4a85b28b5a5;
 0x257237c9ee699f5d79a62f2647a3b51c8362759cd955f10872346ab3b401b04a;
 0x2b6d25849d6b81e36cd329d20ee973c15cd9b62921e27acff048e7589ddf7739;
 0x1ac7317e2e5e3011420558ffa430fcab50b2f3fb778311bb25b1019c88ced146;
 0xf3223d7e88918a33250b61acdffacf1965a5ba9807a23cef7c89c837afe5b93;
 0x1f733faa9efa2db68363757b1a50f443fe9bd4e3b8639f21f1e12ac25ef00b79;
 0x8e2e6b13aa7a352b8c33d0f52939c16819e6a92f7159986588a09e2196efa3f;
 0x208995a721ababfb4d527db0b69d35d50e263bb1c7d97b24ac52c2b316b58727;
 0x1f91d022a78f70863204042dde629c18af85757bcf4863b3eb916a8af132ba1e;
 0x63a2f4c8d518fa72d9ab87e414eb7ccae4ed3ecb6d24fb734d68b43a92e8cb0;
 0x2915c64a0bf35200cca5779c140c7f9e888ce72b9c458a9ade0f0108eb2ccf5a;
 0x17a2028a54a30e4e0eded3f7d8681d6dddfadf26ef5c43cbd1952e584ad5b0af;
 0x4523bf1a8f284c6d95b310dec2b54e0e00e59b571dd9d46b6201c18e1b56dfe;
 0x2aa225f58d57ec9fcb1d6a6711daed13537cc6db5dbc485b21a8c4b13ee4ef5;
 0x2a9a824715fb8db1d5d27fe975f011320887f593d36d6ca7e2be7cc305eabbd4;
 0x9bc4b62c4e071e43c1e20d96810ff912dab86a98b4870d66af75d10ab6578b;
 0x2d7d326fb2cd64b543ef4afc9d2969abdd53042e6038cf53f12d36ba07c21807;
 0x1e66dbd30fe311dac75382ed3843cfd75e560bf2634f4213a0d37be91c269cbc;
 0xa6115e876e097c8651c2370fc0c0a79d4f67199cbca00b3c69891c56dc81cc7;
 0x2b4cd16c063e8d125a334909b5f9271bef61a5e6fcd117405e24b7a8d505453b;
 0x19734eda61ff0dc7c62643d71daeb291cd8f18e1083f82a73ff05e5f8be31906;
 0xf44441cb1795b60b9a424df927fb54b55a53c75a98eb90708fea4b42da18eed;
 0x1e0b6f3e7526e310b7b870cccf69b9d716929e7b1f078652588617ea0b71feb9;
 0x1abfb56c8889d36a1cea7d9658016c9ff5418745bc418d8134eb44e3700d56b7;
 0x450b96e26195e4290a1e94d896daa601b0bdf44651b8575602ffea487fb536c;
 0x75d3fba1c1f0b0869714cc5b4e54a019e13c5a9b745bf38139f2b0f09c93231;
 0x22a1e5663700b7b7af22ac5604b120c3ab73294147889f73b3c986a036fdd5c2;
 0xef19ddef71117af6afddfcb5ba454602d35ebb7497d65ee1e7805dd61d807c0;
 0x293a52d85a881e3845f02993f54c6af700f6344def2da90a2dc13a714760e224;
 0x10f47c70823694adb395246c750745eda7fb57dddf5f6e71ce1a41c2e9839cf7;
 0x5b7b0f8a9586e0ecb9df50b8450b577fa537c94ab7b770ccd883184ae2718d;
 0x2694639d8fd48e40ba301e56097cb270ca1e4a6d0cb5b09933142aefd1c44efa;
 0x2b40678245e68225c4c9d8f78d2e660c5e7fcbac631d1299b1a78df3b283b195;
 0x88322cb02937145ffa566b2f0256d5c8dda53b85ff611a658f4de8aa9ca5672;
 0xf5f45c91500d38fe1acc462a8622298c1a6f53c735abf1d4a971d3d9fd10cd4;
 0x17af880583031ee7067fec80f5b3760f9e19dbbde06343e59591da9080b8dbfb;
 0x1248c5b2d3ebd0f2870307d965eda53ef7d83392cf601d95da0eb124b05c35f6;
 0x286b506a8883d6f29ebff1bcde7429156792da00142bb1292f378d0f8962a158;
 0x2fcf9e1e6970e8b883f8f72bb1c48c53541fbf72f7b43ee9f3273f9102b5548b;
 0x17f7f929e38a4357770f905e9cc5ff7e287e043d06054c78d44097a446174e7b;
 0x8326d0c8a128c073a72c7d722a129fa450fd429856732886fbda3ef61606bf5;
 0x4523bf1a8f284c6d95b310dec2b54e0e00e59b571dd9d46b6201c18e1b56dfe;
 0x244fd94ac9d2b6a02aec10be6bdfde0707d8a95440b04a34feec4eac0a881823;
 0x18f0be2e75ec1ac912920d0403ccfce0ae11a66068ed5e7f0e60146c1eb78757;
 0x67d513ea87808ec1cf7f5880f13c4ff07cb83b06a442573c2e74a679363edb8;
 0x2fad3ebee463c805024a9884e2212288d97d343a199eb1ed449d7f0cf21fb86d;
 0x29e2c3e0e04f7685d1e2cd797de07f3de790cccbcdaf77f1686f159d4e90b0ea;
 0x10bdf28bfcacb8635108ea9153bebce77eab04539700acc64c084f8bc3f4a20b;
 0x10b6a895914a782aa94948c650f6c045d9a15d2706b259acf5fd4da311e1d425;
 0x2cd506792539dbd2f2cc3c96795d96831c21fdca7bd8988bbaac60f254da8ffa;
 0xca9da7606615f15506a87151200b468c11dfc0e28dbc306bcddc6d4828ce2d1;
 0x20d854f50910c52ab1f923102bd6ca5d82da15ba3f0f54f89a1becb7ce1f94ff;
 0x10de4900ee8ec243ca53404556e6dc15caa2bab8dd7f83148dca55a598ea88bf;
 0x1b6a8eb28c126c8682542278e4e4b2c922caf387f9f08980c8b469aefbc69b75;
 0xc2a3124091527d21e1bfd56cd88f9fa0616f2209454b5d1793cbc1dce9d250a;
 0x1d4744f598a2e98144d017acc5fcf08c5187aedea146de6ec74a5612aff8c7f6;
 0xbd79ea1a224987ccdd83f9ac4490b76bcbc554fa7c2418e0fe38e9da27dea1e;
 0x2405592dc81a66a17567e6acc20cca7179ae3c0971658fb792c0986882e57107;
 0x14f497a9e8110eec107450c0fae64d03bc8a8416db391d4c4770dde9bd38d3ff;
 0x29f8bb3529da3fe6152c5ef9cd0046568adbdd9daadfca8195ff20a0df7a5bfc;
 0x2a032300fc92bf19b9cde88cbe9da3f72e3ff50c62b6342e57f713b118a5fb87;
 0x1b59a7709a531a650d5ec2ac01fb09ced8327abd4588f619f36e0886c16c3df4;
 0x1fc0a3436f100a4d61ccbc321771ef6f85e421d5663bcb4c01c889ea5049fb5c;
 0xe9acd5d917d4160434a8fe7037b041c269eddceebb9129b6a176c8a00910d22;
 0x196cc8a225f2c2986abab4268b3d6342ddb645bbcd692863e93274b717d02844;
 0x11459356b20c2ca8913d1c0b45087f5a28559190d486f04038c05221381d4aed;
 0x25e96c07ab87f3f5c0688608c095a86f80ddff5c250f0f6375a45398034d64e3;
 0x15d58252815ac471aee3a3d097d799e9efeb969cccb08c33ae0b7adef18f0250;
 0x6546b3b7f85042fde21f23c3949c39c2276f87701537434f147a3cfeec10387;
 0x1e2aa3704b080c4cf11798a00cc0c8619c8d5997bc3121a17553be7b2dd65678;
 0x4523bf1a8f284c6d95b310dec2b54e0e00e59b571dd9d46b6201c18e1b56dfe;
 0x19e24f5e120e53bfe7fc01338211f4faa1f95084f2716e5587660295ecea8d03;
 0x2ff252a61572b7b92960841bfecc4bf5940bc0d682f1770fc272f70d41682844;
 0x2b9ce87d63d943afd940ae87979d5ddf50b784fdf8cd4d1ef0e7c4f220c98647;
 0x18eef6bbabd4d2a581f11e2b22a591364f5a4fba59146a97551fbeebb865fc2f;
 0x1b094af27259dae5e2f1929f16f00fe53d3acca1867d359d4681ae8a71f9ed65;
 0x2f2fb2e00ecc111f573d8002c53959067f3bc7b52959d0269ccfea9729d89435;
 0x48c4f81825c5584e76fa65b19b9b9fff7db07039d3750f3a65faa0a608b71f6;
 0x20be19e025ea25f85f5998c77a52710dfa5dc65bb2665e58faaa5db7a0c8a92a;
 0x222a05083d24105754e3f7fe45ece6add87677e8e64df3f44041618593aaf5f7;
 0x14f3d89c38b0249acb03dd0e1130100dde039b1e442c1c92ba36f8368ea16825;
 0x13667b7bba6c07aa7e18db6ce06e1308cff4eb1c0aeccc1187798aa1e97967d5;
 0x2bc234f4828ddcf587bc65d2a2bd5ad0974f5acd1f790d590d66e8f2ec739e1a;
 0x21464644fa0fb22494f8f6a7f7a929362ece3b3eb9fcd77cfbc23b2c9066a9bd;
 0x8b65df38447cc47455b407b32c8bc2c740c0b7b37ebc4c61d867b75b844fbdb;
 0x2369e1c199639bc505ce0da45601e0a51eff0f26588d74853d07b41a40b5b701;
 0x199051763385672f6f8303896f959d2b24b4cfa4d62faeebd54cd43e190c5e6c;
 0x201ac20d62b94056b6da288cb5a75fe62dc788a8b0d37063e22318f8c8b5dda2;
 0x18157f398ab7dfe77094ab6e91a5ef4e0ec471fa1a04e89969d1c11a2cbdce5d;
 0xf33f8f6546777c507e2a79f099a48d743325864e9e90a927478545a21fd721b;
 0x23703db4b584d2c4873e7674c6f3df0e16dafd344ffa9431cc3348424e2fbaf9;
 0x4501063364805e7a5e7d0a9b8797953e7f08a5caaf873917dfbc3da3c5be895;
 0x2ea0b23d55d50d907bfb16497f56a979ac7f460172477dbeda7b450c7625d243;
 0x68dadf39001f91f51a0613004e9614a54402b6fcbb0f4b8bd8aa546275e3075;
 0x241c7eecc6aa39719bf6c6ac8a980e2100d8c341565d138ede2b374177333aeb;
 0xbb9576b315160e6d9e5878bc54cdd9cea38c935d75fdf8b39daa3479a29b27;
 0x202599b284bf67ea50cacca315c66218f4c59a49a27e193edec4b9f93bf05322;
 0x170070a071a8648635667f8315e5412c48c3196d1d551ecd114857cbff9b9d3a;
 0x302e841876fe659903563549979b9e27ca6d36f004a559bd2461d5dcaa40d2eb;
 0x4523bf1a8f284c6d95b310dec2b54e0e00e59b571dd9d46b6201c18e1b56dfe;
 0x2731f1ac5dc030ec117fbad7b53c6b02a6c9e04a17f64bc0e56885fba0c2ef3b;
 0x8e4443070b7fcb1a28f620f990800bf0a23bd32146d7eaa824f2b02f50a48ae;
 0x7f1ea73f15d8be5ee132c68b1ceb3573909753f86582c57150eb71932972e5a;
 0x5d68802b26f0b520b248a7d4fc2461df7756641131a1ad109fa2588c462320c;
 0x2c6db9f72cad44c3dd15a83d5ef9eb7216db1e716bd8bef960e52cabbfca8101;
 0x26365d95008667a1e1b2653e98f899a378e08643d7bbf706c7d3eedaac0b16f8;
 0x52ff974b2d04537b8413b1b0c85065f727ad6da454f909dda0aa5994f7cc2ba;
 0x2b769645daa19e2b07470aae4cd88672e7160cf3c07c7b271b60668382810327;
 0x25f56a0ae50d333f294efa08376a37c386dc4cf24367139c640514547dbae38e;
 0x2f2d49b2a257d8aa58b838af6357d865236ecb76e7db136a09a5a094ab7c53dc;
 0x2b173636674e54aa05d0bf2c60c5df0b31b2e801e6afb149eaa2c6fd73d6a626;
 0x2eb41bfb627052e1e7373a7392264e7d680a19cde030d8687053755207c44037;
 0x1841952650b7215b249cf50f8b6c78511c2983145ac405cebdfa1a8f54b986d2;
 0x16569fbfaa5e330f4ce139b103980e0569db854d701d76a233ec9c5a8f7bce2c;
 0x60c71281c4ed3a23d7ce20dd30c22aa172e245ce529234ed18a130222a9e611;
 0xecd53722d116536580be7b8a5c43aedc798e1110c99fe9d806be2140f5c7786;
 0x213c0693e38ab9e0cd02d2447613d5033fce7f5444387652f03e95b9a18dca64;
 0x772d0faa6c722c861da9582961e239c0f4554580a5a067f9d9e9bd71f978f85;
 0x139feacf69de1ee3d14f4fb9ecd06681b58d4ea37d309f6062a2bb34806e4b0d;
 0xfdcd35d68b9a0a9f0d39ba065449a7ff04c9301927aef113c5f34061299da94;
 0x125be84a276a6acba551894f5dc8e14f3734797d489cbe94542be8bca82c5e23;
 0x2be65bd8dbfe8d435018dda75806ee34820686caaddb53f133ccd9877913370c;
 0x78ee87a14ac262c2d74b17aba71d620685987727ca21484bad37052d59d3bf4;
 0xdff2aa73f9fc438777ec8be74d494ec8c36fc04ad3f12113624a58ba52abab9;
 0x282f6e2312ac752d294d116b0308981e7ed45e2162403c5ff705d136fc05ae60;
 0x2791a0a3c213582e9a272d6b667c740e63cd918d53ba444d23d095df767b68d6;
 0x17477c566355c80fc784384715356f69c8f104b0154533af3c92e0a8a1319ac0;
 0x2fe67e79a807315060135431a9b4426982e90f3b38ecd5d8e0ed7a0cf58d6c1f;
 0x4523bf1a8f284c6d95b310dec2b54e0e00e59b571dd9d46b6201c18e1b56dfe;
 0x957903e40cf2319059c20c0fc70a5f3f8a79a64f3330d165e2c60b5b2e7bff;
 0xfc99ae6ab79445327c6d487e32997d5b476717bd26b47b073471c8367a3cc;
 0x2962bbf10efd8a8efeccd09ff80e9ee162249389094019af228cdacd2e42549d;
 0x25a909692ae443abd87eddd74f8705c80584216d5be8a42c79ca3079fddab520;
 0x1c0e8c1b8bdcb489bb68d7239dfcfd5271c4ac39d27e222be925de97750ad5fb;
 0xba6ee96962c66ec04c070eb3e71285d8c91cc967d20d72de7291f020f2c35ab;
 0xcba1238e9ce747c7d499320e3bd270db14cd796ba829328556f7c98d64c0d5a;
 0xc875635083ed6976d068751efdd6cbc3cd65da7c97f642b5361ea734f970295;
 0x1697dcd735de9b176c4d10fc5ab1228775788ed4beb16dcb0629efa99a6a7e57;
 0x244cf5956b0289a789aaf00f2e2cad480cf0824afe8eae41e259df395bebf2d8;
 0x206c3705f63d7b871045c5245bd3bcf720e12e4f0a82fa89a1f913646d38babf;
 0x20b58ed4e80e868305522f5eb670ce452ca9b1d541897d51ad7b42c4ecd13205;
 0xaf72e95de70f64d621db85a37f69f5712ce06e7596aa97a1188bcd3861d6c2c;
 0x1c1d15ca4b3e0508280869c3ef38eee25c3d0cfae188b5f3d59d5c7c5211d773;
 0x4af306d94e8e36627df09ffc20ec563aec05452b6b8c1a17e93c8a3f30a9207;
 0x2f697c34b59c559aa232e40024bc6da390426adae165002df519d7f2c71461ca;
 0x8a7299528acfb65d196dd9a7a136401178a7d03f6fbf5df3c69e6629895dcd5;
 0x221f628204240732be38e2d0fd3addb1080248592ccf3d655364e171302b4780;
 0x2b4a05f00a373b8fb7938b4f8812be582796986113ba1d80749be041dac49088;
 0x16d94da79927c24b7bbd25defd5c0fcd67073d738f31b93ff08bad9078b2a23d;
 0xb536adba2330baa9a070a63f86c465e3463d4afcebadf59a233a0319d1bd21d;
 0x1c57a599441a0b1474521bd0470a9cdcce3615e2575ee4baaa38a25958cf1784;
 0x1f13db4a9d7ce5fdeaebf3a571fa14807e979a23d8f1d426fa16ba9941421c60;
 0x12b527cd8c1fe08e9d909cfae1c405f11321538cf59af3a2cee67a06b11d9859;
 0x1f2c0fb5f11e6d74db0c30125e48be344c15529c61d4debb013a7b06f07fff95;
 0x1352f4a6320fb513348dd5f02ca53ceb1a47d8616892608eff2284ccb7fb1d01;
 0x146dfeab263219dcae7613a9b5403759d5122c9aa490e36ba5b4a37d489f8e5c;
 0x1edaf73615e187effe0d876478e3682fef5d63e3a12edccc216dc302d776680e;
 0x4523bf1a8f284c6d95b310dec2b54e0e00e59b571dd9d46b6201c18e1b56dfe;
 0x1c28442722fb49d44d40b2b6e86e2218f956de3f4b376c3963955666a8f57189;
 0x20e9e5c1b5d8cae475cd16e899d1c9d923d8d20ec60727d9266e66cb0585a67a;
 0x2f8dfa1f54af676eea3d05bcc648b8f511ea011b5ad23e961e1b695b4b5267f2;
 0x1a1a5037e57e4ae723753d3d22f965ad8b911f613d6b0e5d64ca9050ae43633e;
 0x1ba983e3c28f6398d73ca8f7e2963564a9be471ccd5c3eb0c4f8e96635059529;
 0xd4adfe4a7dfeb3cf86702e54888304e36057c89f10d46186d647bfa700688ff;
 0x15c0166eea20cd705dec4b44aaca007e6c9e4aaf131b47789cf70e53c069e6be;
 0xceafabeda1dca814433c969943e534008012b6555b08cb2a4abf43793fe0e5b;
 0xbd15d8a31cbfbdb7c36e540f4c70a5eeead9d43a9414023c763d2fb643fbc76;
 0x17b69dff9f9dfdbf6bffec7c7ee15eab02eef17254a526022d878fcaffaedc75;
 0x272fe422dd56f28e6375cb725ad469069e1e48aa945dffdc1e9942b46307b763;
 0x27d2db5651e5293ff051000a36a2c949a7a3e7ce326b8c993845ad572ed1816e;
 0xe83466c2741c36fe6f5f5e6e60bad5bfe3ea06a7db58680dc4a518f42b6ddb9;
 0x1b97b0489274a5912c53c18137e918d8f7d3985034c617d9d5dae4cb75990486;
 0x8b09b027647befc8884bf237a58efd361641e4a25ab1e8831616ad9096aa157;
 0x22f46a0157b70196720c57a7636285c4b10854721e4533294283652b1911bfc2;
 0x2f1f803aa4a96a296bc8dae8d07335ad018e77ae6d779789bd718e72d8709a53;
 0x2245e61dfb52be01fddb5fb4179140e4b5bf8cb1c7afbbb6976382cc712d981c;
 0x1683f9bd4b791410d1a889953b716d95c440692fe4b4886107d052a8d50307c4;
 0x242e864ffee30fe0a080e21e4d275db8355560f07b7745a4e5aef58d09b653a1;
 0x1eb483efd8310203c93a42e06b18be5b4a0cc9612c335cdcc82c104c38b3e8e8;
 0xa5b1b4c8982984b6ef162eae01f0a53337c0991c27faeed2b61ce3cf99f6503;
 0x10c25a14e51fd3df8e34f70db38cd60124a4f4837d0b024d5a0cbcfa8e316724;
 0x17e9f3efea4275ce4dd5a760f4215644cf5fda3659cc82c8cdc1c66ba5336c29;
 0x25c1bfc4e679b3b3a692755b3313ada05f6d747365325250e0d6c0c566070ca5;
 0x1356277171f1d2a2e677bcb161d9d760648150d1f297247ea842abf2633d4715;
 0x28aab6b87f9f0f8c708695594610fc99a820dd994d63ab25829c0eee980d246f;
 0x148d7520ea0a3d7ab3ee550cf30cdebe434ca7c84ee346a5b8b6d5d35ae06e88;
 0x4523bf1a8f284c6d95b310dec2b54e0e00e59b571dd9d46b6201c18e1b56dfe;
 0x24170fadfbcf05e5d3c5d0d5d051f71de23175002d1f02002939eb24ce5d6d29;
 0x29491e9171d578c03ba302262531a6d8ff03ab25af7db467947e543553b25e50;
 0x10acd03b983a457e3eb10f10666a7540b46066effdfbb50a1c5996e8e42879e0;
 0x1fb89a866bed5ce87cc2170f998132512ebfde77a2aafa84f288024ebd9e6c78;
 0xd98b830d880dad4a0755da7626c0cb7dbc454bef88b16992f3242c9fdea3cb6;
 0x1c0d9302769b138d161d471195f06bb20a5a59f53f083731bb4b9407af705880;
 0x299bbd2c9b64bffc601a51ce60185e770765abb952375055e0f8c6edc3c1e7e7;
 0x1e3e012a3a23cc56b69b92c5a82ddef538fa2745d68bf99e6c4f65670b8a2581;
 0x11f5e20407ee480fba59b35af723c3c1e7e60fc4817f92d6394cd7a9c65ec766;
 0x26d3be3bd30f29131705a60fc4f5d51c6617919993bff2a9e9cbfe08819ca686;
 0x2b29ffafe79893a89844e650ccc01ada03f91f4853166006e0efd05aaf3e3647;
 0x1fbe32c5de07b6d625c86ff0062102ea1ae1f63e80ea0473ec747ad9a67e8a08;
 0x24e36875d9f11a3fc2dc23d8ae5270150759b92a7dd422d2bb196603835715c4;
 0x1859e0cdd36899ba3ea1a15b6a5343985e2429576894dcfcb39b17485e965a37;
 0x2e823c343fa815b8850dd85825f5ea80cb32e17ed0a8ecddc478609b094952c8;
 0x27ae666b5dbc3dc0d19c32a000a7df0fdf669ef25691627c4d7b17c6f4348d0d;
 0x13d3988c983fcb3cb784b222b2bb8d4e947afdd3fb1d0e5bf2ab876eab1ebfd2;
 0x26055ed2f7cfe90bc54ebeee9ae37eaf62f11d4ce7ebe370e7776167a51779a9;
 0x187a3031170f0e0ccb8ca67fc2cdab2c2a5274613a5ce191a1790b91cc6c5888;
 0x979a5a4f896cec804a633285c9457728b5a6fbfacad62593a23aeddefffe055;
 0x17a9aad3bfa4cd25d929abf715dcbda7ab2933a6868d33720a5e6c60f88e31c6;
 0x51192a624e65c0f7590c37385cb1a0b52b46205d2ae7109e076c08b307add00;
 0x2aa14feee17ac6700e5e58952f28d5435fbac37769c3275ea9fd35ca622fe7b1;
 0x354581b4a29a9ad673f3c57801bbb6f8a57098c9cf5c15860b4dd240d83b536;
 0x23bf29c02d8d818da4257fadea084078a4f7d772795ddcba9e53030e06cfe36c;
 0x209923e9cc079197d001f330069b05b75547e48685afb804931af5a3a241390c;
 0x6d614256aa7a08f67ea8d06bf03ae83b820669ef7d7c1c7fd992acb22ae6773;
 0x1131b48492673e474c8e23277571bd9f9b892b8ecd3b6af754ef83a1f30a429b;
 0x4523bf1a8f284c6d95b310dec2b54e0e00e59b571dd9d46b6201c18e1b56dfe;
 0x17ff3c20af33dcd172bc3042ca7ba8b9acc7c5d35694a795bcc8ae3c35d9e748;
 0x273eca5bc74073b2f6761b6b0494d48407c4a021056f88b79f0dc3c475802c39;
 0x24edf79bc35300c727d39b301de82e8cc21435e8ff3f34905436bedbfa6f9d91;
 0x2cb3232131a5d86145127c61ecc8afd66fcea63e3ed9b1ff1ef3099aeb2047ac;
 0x1ea49fb0e46edcc3a90651f6e1a4b36175bdb25505cc998a101710a4fceef13c;
 0x1e40d394feff0707116e1d43c523a36ea293d11ce3059b5562ee678a008a594e;
 0xfe47524266480df132a54698b09e844745eb540cba498623a93f36e48c63bee;
 0x1f113b5d7c4a3e1f1156dcc68358318ce699b352814ae0253672d6c185422980;
 0x1aed347277640a0a0cebbc2f4ce523b9a51b3750672eab8a9e689c488bc416f2;
 0x1ef98e57380c6a8084a8d77b701e23dfbb56339ef9cbdcb9644460a72a1f32e3;
 0x297ab0678798b06a4cc7147cc125baa11a058cf0889354e63229f185336cd356;
 0xee54e4f901531d3811aa6575c60409c7e6ad4b475e249fd3334883b438a2097;
 0x1b9b0f52375f34b4210e078d4824d0d385e6e412cf177f862aaafc3b6f11deef;
 0x261fe98c4a6882bf586ce9c03ba90555d428567bd98761ecb57bf8b1ec408458;
 0x28d8a46abca186e9fe9b326c166870f98acf6655eca805b881ee02ed4f3e8134;
 0x4da6035fa7dd89980485ac0feb277b1eadc58f522abf010de5bf9d33974f232;
 0x1a9738d1389ca170c20ab5bc4d39eb39992acf40d0c4da20ef3e3394ef369b88;
 0x183dd4932830f3f29bf1421cf0e03a90321b974c93a2779cc64031c4c0166274;
 0x1daefa57c81865e8a1e3163ca39d400cf5ce472f21a1888f300741ca61d61a3f;
 0x2ae49d27bf8dae3b5f8499fe9f76fd2f247b3825a8f4e89e5c53596a6ac5b13f;
 0x9063107e2a28ad8dec4ee2a43760006c728ea07dc7eff26f34c0e88becd87b0;
 0x327db09f5185889ae36e52db244214053b27bf18d3f240552dae62b60badfff;
 0x6e61b73f704a3cd70cfe843f37956d0c35cafe6bd28c5dfc1be98399c734fd;
 0x484994555a799cbc175bce4f3add547300ea3bf0597b52f08adba0d0d7478fb;
 0x1509af8f777631bb65bbe5ae68fb4bfd3e61040cc4c28250704e3e52e393a7c9;
 0x2502148be563d2dbed722eb34a878e32686eddc63235292ff336430ca6bd5f34;
 0xa90580e651271747716e4e65ea8dc039345e0609e4596fe65fe9539daa129fc;
 0x1268ac93435ddc3de28c7401ed6612751f4b244dccfe1a75269da8036a1173bc;
 0x4523bf1a8f284c6d95b310dec2b54e0e00e59b571dd9d46b6201c18e1b56dfe;
 0x11aa913289660f7deb7ccff2f4be6dad755ef59eed4b716fc8d87e247a6fdb45;
 0x29e72a16e4534eafdcdd6139bec5eb95e22b7566508e1b748614d450b54c15ff;
 0x1a958e6a0b1a339f1d3dcd38ce1328571f35f09abb1686e2fb4c3459f036c58c;
 0x2ed8337208e410744d73bfaa8049dd98a673eb4734b2f1e6c50dbfeed2532eac;
 0x29377f640a7f6f76b922b18954b3ec12216ba9c13e0010002b59ea34fa974bef;
 0x23454f27137134b9af8d43dbeb2f146c9a943bd5ec7fc7642da2ec887e9bc4cd;
 0x209816b4da19597eda949b4db4754061c72a3c902f9130edc98b592470b0ee5a;
 0xc1eae8b0bf925b0a155e42b2e51678cf5efc23a07e62a16ce7de2b5fa23a43b;
 0x86f81d19a31671e41a874adaa71edac75c4eccc6a2115c2ac96bab6e4da91b6;
 0x4c599ac0280aed84f94db0e328837392ea3338153ff37de61a7e28bd24392ce;
 0x2c4b7cb11e988d5451ea53bd7bc59c1d92a3250e5cb1b81c8017efd00693ae0b;
 0x20b49fc26af7d51f043b48670b79a409c4fc366332e67dcab28cdaed5fcb8f32;
 0x2b2de9914033de3d614ff1cc2a46234dd1f3605a9f4e52fdf2169986b31a754e;
 0x2a0a9aedae2ddb9eabbe22dedd043c670ff098249bca89b2d7b789c1a200e832;
 0x78bbcc544330029c5703ad867d374a907efee1f38764e417f6b724ba2156685;
 0x27f2b059159be5955c9e227e865d0a8add82aa951ebd9b2fe43545704f0c4bde;
 0x7a6c429e1100125d872120c307bde17b721dc31e16763cc096a989c97df7843;
 0x10424964905ef646913f708e8d4321e9ae2263875b83e5c65d096516581d4090;
 0x2c33aae7d921d4b90a0376b93aef9a02975fa8343dc0026066d791e9030e04a7;
 0x1232983e555c7d4bb4288fbdba3df682913813bbe616c9ef9568820e02459b4d;
 0x1ab5023e5ffbea8d4fe8e006beeebb3162a26e2a4546f51b1d836d3467816c0b;
 0x1cbda131f20b33ebceacff9339451b84854e65775fdc1f5ddbe8c35fab2116dc;
 0x2ba0bb8404000f7361cab18e78692a17d953323a30934ab439e23b6605c023a5;
 0x35fa0580ae06fc96e0e4af43e63b089591bebe233c526a67973f25cc7fb482c;
 0x70babb38665a3546e6e23f8f3b26f058bf131abf19d3c13d6d0588a317c6d8b;
 0xb642882c1295343e9ea28b89a62ceebe0b7919b6ca5e18811aa978bc181849e;
 0xc68a36f6df8c27deea1f66f891c80fc215aefc646f545d63cadf22ab44b5914;
 0x66489b3cc989e807be1363d97207014a2a14052de80edcd15c4e2f88d2c65dc;
 0x4523bf1a8f284c6d95b310dec2b54e0e00e59b571dd9d46b6201c18e1b56dfe;
 0x1026e6257b43e0afee22a0189f28e10718f4cc5e49b3d15405df85d8153e8e1b;
 0x3947588e943dfdbd95694ddb3a1ba7f51028c847b8a45164e87b5522418aec8;
 0x1b1cb2c496ae764bfde288ea50405ca6ae4ac6f9ad1998b83b7557787120cb1a;
 0x24fa4f9ef707a77f4f3742aaac6b8fc5bc59fa8c4046f9d024e3d5d80ac0c38b;
 0x21dca28d7160687fbc8d0d144c062711e4207f617895fa46dd87922777ff10fd;
 0x82cd14685bc3b3219e1a76ba6b2cd6b8286405a38705273a7faeda1da62b3a7;
 0x288c7734ce6cf001742b8e84fe502cf5205a623a3f0fe1d79f0fe916df073c4a;
 0xcbeaf576571ebb86d175b804c4655da7603096f9865f983a044bd8ebc416714;
 0x257aece5dd9d7be08e83df64b50b5ff1e31e4cb6ef8610c6dbc9eab409ae7383;
 0x178df36af677df81aba8a9fa9d31f995378d1f69d782058f7ef769555ad5363d;
 0x889c87f38b0244685014312d379ae5ae934531ba20b7e89f6e1e975e96d5bed;
 0x28898ecb6a12d999474f7cd98e7d0e3eb9da404cb45de9285115b647caf3102b;
 0x1544b607ee25873cc317f6eb88b72ba9371ff52bcb64753b0e90dcef61032604;
 0x30b741264c73950635ba61ae3be32eb643d9a78fb6a6f695ad4046f1b29a87d;
 0x25052d3381e118c1995ce20ebee9f1cf615053caf4d2ccc143fb1e6c4ce154f9;
 0x2f30bea892f8f2b335b8e8bd925f244335e430f0c77a2313013ddd6ed40de0aa;
 0xb0d65fa768e06aa8e5b1aea32a2d0eaa75d2548296268d7bdc1c4b7a2234989;
 0x1fa1a1014ba36436c1a7d8cea18580c577928229ed8e30ce94dabd98b873fe27;
 0x301c506433828eccfffbf89757d52692c7ec633f32e726ade9fb89f7839150a5;
 0x154a7110569dce2d4dfbb0c4d590669811751558a06207a1602bef10d3428ee;
 0x2f27c0dd673d6353840612d1cfdec89407d7a23e25678d1fc57aaf210355a84b;
 0x48683bcd4388885dd3956fb83e1890710c7d1cc5d103b48c2eb7a4e48d3c5ad;
 0x151c3648a02ad924ee9afe8dfa7f163033d1683aa8ad9508a6c96ab29c08908b;
 0x14baa70addf9eba4a80bbda03d2fce92e571486eda83f0c0fe59a7e4605eaec5;
 0xba6cd972cbb3905ed976b62ed34d972444d8211c71f82a79c089fef7a030e4d;
 0x25adc9138d823eee97b0dcf9e7142c4d791bab92c10215d5b4f44ee166c44018;
 0xf0416997a418d2a20cdac6c53e67640da3ab4b5cad5aa3c9c442efb895b7744;
 0x1dc3e4e5d9f2e587fd95028c6372a304d987eda0525879d1b7da7c775f0a417f;
 0x4523bf1a8f284c6d95b310dec2b54e0e00e59b571dd9d46b6201c18e1b56dfe;
 0xcdacd248084fbe79ef314cb06a96f929ce94f525301e8858e6b0ab419a7b247;
 0x28765df4d0b75915b2000538e00a7dcc8219c6e428e82f452ce8882e609eef99;
 0xe81a5592eedab517a051cb7235c8bf0dc0c332258a65ca6e29a8625a334fe8e;
 0x88c064bf7c553c7e4d1b38425883f54d57f18a7f8e9800e06a3c2310f01b2b4;
 0x1d24333468728c030f01a3c93fe035e9fe913f3222c7149cc22e21d444fa49f2;
 0x81e4d01326c4596d16d5d9df406a063f0c6b323e2a8e406b2788391a6b2addf;
 0x352a5a0fac781a16a2d8bd72c9402a3b1d36199bd4ea46125e33c33732ab311;
 0x26618bc0fd81464f23f6e22fc19fad753df1b3c076275c95e0ffc437760fbbc;
 0x228b70124680c991be94ba0f8016e384609e7a7fdb2ab40d661614d65a52193;
 0x1d0ba067834fa54b50347297a3525a6198bfc7d47dd47106072c7901b900a4a0;
 0x196b16b4a3f2641cc6b343a57a66867f96be45005df9c9fc9d07710010a1df0a;
 0x2f45695ff148cac7bd348b093d94e075a73f4f60b52227eb8ed6048fbc47aeb0;
 0xe93289c741402aa1bc152dd82b4889b657db2944dd6cc5c9cbd8e72e69063e;
 0x123380ecc6c09da5e9f5ad2d298dc60dd0a9d37a4b67d4833d2fe428ae7a8db2;
 0x883e804219d5edfe1b0bfae68a76df18f1ca939207b6b0bfff7bef4309c7187;
 0x21588588decbc2f33ff25a389fec95f429fbf43b54ab23ab20d3914ab844eab;
 0x182c5a52fe6c6d2aac38a2fc06ffb65595a1ca4110cb09ab6f5070f5962fc478;
 0x6a58def11f1c27cd234bd7d9be04610f52b68575d9560d3dccf8ad9b5b741dc;
 0x29cbbb5cab2c9dffc5b12c9230afaa59c7d0b1846ff9bbd0e31de3218afb7742;
 0x9a1d4f4f00323630dc4f2d326a5ca2823e77944ebf1c22cb9343963c627f17b;
 0x25f5157f8a190e6bfbb1eae9cd55819609220a196fd89cd44b5b4603e80e87a6;
 0x2f0794e7af6874b7463bf9d7f7f6cd2b9141b2c71754e4a8e487e26b723d0d8d;
 0x2a816cbc315eb725995b6ab706c6da8757bec6f588849f85d10b31767998bd4c;
 0x2c5fd92cb6990590e62056205768da25c8132d8bed9cc787e73b81dd9ddc5448;
 0x2e80276a04b486b1a36aaaf7c15d1b6b4bd48238065cef5eab1c153235ca6937;
 0x15257a77d445dde9259c6151c0af6a1771f5c23924a4c4f7fed58669ce49bfa4;
 0x1219c007e9664d8a54be73a03262d03bfe15eb3a2f8e7c9194271235eb435814;
 0x95144c721ba3b18324e55e532885ce67613444d3cb3e95955d7201d779812d8;
 0x4523bf1a8f284c6d95b310dec2b54e0e00e59b571dd9d46b6201c18e1b56dfe;
 0x101a646241a8315f204d41adb7fad83b1a502ea09e7cdd815b21625cc0ebe09c;
 0x19282d6967bd22091e34c47fe72266e1cadc9f58d4f4679dc9255c09c2854963;
 0x42b2e9365e95f6b6afec41632d9a933f4744106315e3df2eb6633fb87356af2;
 0x86ed6b49511d6bd4815c76513809a77c277e506c3052c2beded9606623a4c99;
 0x58a4f66ba158c1aa28b651917f1fbc744b5286b3f6672ad39fe177be503345;
 0x28dde10bcf8969aa7a5b6ba1d48e2dcc3f69dfbb224566cb3fc977244a196cd1;
 0x3842b61df1832bc6b4e0ea70d7131f7b2561a94f78de3371aa976d05d635894;
 0x2c3bedddafb94b9427993c19bfa19472ed8cc066084c7cfa5c5e7f803a7582bf;
 0x163541b79f81db7f2742efa3584f07e1e7dd25a19ad934623e14b87f99601790;
 0x1846f2e5b96f8abbf20a2a6ed0d9a263337310372cf570a318dc3c91c849f112;
 0x6c7a3cee3f4166e6212f93f7d6eff60103cf16e252df30d110cfa0102331b15;
 0x25be194f6a3d69e3bf5f0b7cf58030a761e628b1a4de003d9e8a02fc2080ef74;
 0x2699fb6f71316244c10b2c672b2fbf077f217e1c910ccef06524af80f9c3fe0f;
 0x20e39137899fc0d2c5391fe185394173003faf87cdf3e438798b1666146b56c;
 0x22b9615e9d1b58292148c5aaa8c9eee5d540aa62bac93ccbe16c5b657161da59;
 0x17a4039cf90fb2c8ca78a2ab8474e5fcd1bcc7dd4974302128890f792960a722;
 0x296a7947ed0816212521f82cc836f1b747640ed9311e5a8432b24f131abf74da;
 0xe6222d1f658021ae1a8c83fef1078b54fe29719d30a30e33e95530140b2ac5e;
 0x24a832d0b62d7fedb241b289e95fc7f4507556c422183cdf1bafd1a516301960;
 0x314978ffbd36b1bf6b6efff9ceffdfd22c3128dab03035bc4d1811ed3a22465;
 0x23456fedebbef43f154140b56f0106c7b3a5b7cd60f7ce2a085a59d219364080;
 0x2bdfd3aa4bca894312e9f392192596efe7aadbe7b2c22aae990c18ce32c56f2c;
 0x1767d8e87ff8dde844b861af172f011a8094f2c93f14a367e3f4008414779996;
 0x9afea3b803901209c60fbed76494748e3af704cd3d68f6dcd846b5b37efd752;
 0x1eef9a7f080331471dd29d7d0106b95b1cf30854c201d0c7354699f2c0ff18fa;
 0x1ac0df8788f7b6b264c4b5fb1d15f9f43ccb6914fa627a6454bd7b107398f328;
 0x153587dd8856ef1c5ba584cbc5c6206ff27316111bcb089a37000e01fe12156c;
 0x1ec3422f01d367deb6566ea3f37caaeba6e6f1ab9b487e6adcd9abe7fa2d17a3;
 0x4523bf1a8f284c6d95b310dec2b54e0e00e59b571dd9d46b6201c18e1b56dfe;
 0x92ab362071be64ee1defe4c464b18ea957003ddd4fb25ef1ce8c93eb0da67e2;
 0x2087c4812bd0d03d971979f341256e284a686b63564b913c6203e3a3316a0bbe;
 0x15e9d37afb1e0877c55cd521cb79c5f20658f8f238b8679a50abfab5edd498ad;
 0x2d3aef5f158c34c12fe84c4d48d49dfc4b27ef3ad9f6e9c29b9516be85df233e;
 0x244a3d476b0a0690158a1bedff28cfab8bf6f5ba4491691326e6b1b71bb2650b;
 0x10e9d046cdec45124f7bd3aac446b7f0eba568df3462c86c60751ce3e51c3ee1;
 0x2590289589edc3112e5d87b4f474904fa9dd4dc4f26298d1e9666c281dd58357;
 0x13765e0ca93cb708b9cf1ecb6427f1a0df0b53a7d112bc1a1439c3afc8e8c13a;
 0x196d3192651b1e8b5b1cf54e775eea3a4f4d67e60db2f0be380ee48819fd495e;
 0x18c81e4ef19c7276d9cda9d9bde0b3d4334f4748c76db52bdc4cb0de91def3a5;
 0x25f4226ce2c992fdb6affc2c85c8ca64c9db486e8471f93e30d97045eb4aee58;
 0x2a152c83769c9a975382957eacc862459e4227080ef497775273995c3f30c3e7;
 0x13bdc6f2694024b1e21e3fe7b281e44a48e32c31ae815aeea28a283187bfce73;
 0x18be50dd564a7b862bb9f3fd822a9e6cf8527290d0fffd2986b6efb0e4ec3ecc;
 0x76b689cf6fc26746914c11187642ad45b934b9dba8499e1e0f645d1e7360976;
 0x24cb96220d02e7d183cd28cdd89024647df21deba55e20bb0a529909ed483db5;
 0x109261482d8eefedd9555eaa2d4466e1b9582cdb50dad968f73ad96df83b6afa;
 0x24f33850fe4d7019ffafbd669532788d02c6a0dbb39948ada0b07f444aa824ef;
 0x175369adaefa269a66baec32ffd60d1be0ee1f39ca8525dcb73a6357860abb2e;
 0x25b9fec7cc7f651e8354d7aae86dc9b3964fbdec440c6c8369fea81eeaaae8b1;
 0x2d0c8b82de5ce4c55025fcd286e9ca575c3b0b90a7da5f677a0504c05a4b0cb7;
 0x227437dd063cea6ebb85f7b564232d22be29cdd7772640936c3698b7c9fecf66;
 0x1bbba5bfc8a010cb25f637ba686157eea46f820848fc2c2fc636f933d4014101;
 0x14471102a5ec4909add2c73da2c60ca518809f1e160be7dfd14a6e9b397683e6;
 0x1b13fb4a716a8661bd984574b55249784576b8346fc245fa7ff1154e748623e5;
 0x26344c34f453274463aaf170748550a3e5cd38fb0dfff173a2ffca0a7f2dded;
 0x2541b62c8a52ffbdd29ea87ae0919225e12dcabe2104b5f4708708a2cf4fc38c;
 0xfbd922b73f16d661458c67bf7b4b325aaf303c5a12902a667a78c8507036976;
 0x4523bf1a8f284c6d95b310dec2b54e0e00e59b571dd9d46b6201c18e1b56dfe;
 0x2355f03ba072a620b568e7d310d9fa639d134ffd98561cdbd2297beb13ea0f10;
 0x25ff4bb05b96f0a0b05562057a8db99f97e1e2951137c0c40fa932de73ca19ed;
 0x2daf950c80154f6e7c49704d705e14871273499f2f619b86c5c5d157a6203dfd;
 0x51cefccdb8cf6928b91c3127747d700e86844f1148f0a34c6d77c5b849fe690;
 0x238262ec5467d6af343b33543cd5fdcdf909062c84f812fe01aed5cc87fc476b;
 0xb7daca406fc36c69aa958fa616f4838d61a9dde2e45ac8bc788fb2cb21019e4;
 0x15bc83c5e68048d36ab9dd5750982c086ebf0d155254d898c60e644231c54e13;
 0x1c63961d501d08c43558a7bbb6adf0248ce7d85c46ed8d18cb57fd255d70da87;
 0x2509bb8169fdbbd47da25a7229eea6ded1c619d3c047b7838aaace2693656732;
 0x69a50d4c1eec1a0ed50274c6fa4867ef658dc1379d8fbf9878d4b35e9fa99bf;
 0x15d74c0872e9b1164992ce0394cab9fd723220e0696d28ea011620716be1af17;
 0x10b0c815190863422b42d8bfbc68921d1ed561055ae5057b45c5e46be5a6eb4e;
 0xc11c306b5211eb36fcbe505a754052252ddc622d02f4420c77390851d6c42d2;
 0x150cfca445b9336ce22dfcad1175f597794b2f4bfd18a9780eaa12eef2ee5c55;
 0x194de31d0ce18660aa746a9356d96070ce237944e5304630884874a2fba798d5;
 0x14c2071d9d7df808b50b19e77e314406aee8b339c4a245b2770b802af790ebb5;
 0x15847c79aa8e1c92c18c3bff302c31eb38f001804c8291fd590cb9025a7d12a3;
 0xfbba1d54897882de6c7d26203aa96c3db29d788b0bd435c1d354c271b126973;
 0x1a3b7ee6c4f24ea92d2228b4b760223f9a34d8f70c3872400920bc066465877;
 0x2ce61015cc1e5520a83c0124f38a8359caeda53051194702485e00cc2ed02bf4;
 0x2b8be03a29a0e8fb62bbc207e587deb46eda5bdbe99e522e773bf63e6cff6334;
 0x105e1aedf0cf9f12ad2416a44fbf458d6237ee895960bb8c25299ac72bde12f2;
 0x120c504e8e99eeb16539249612eb1a9687e2f99e4fec80123f0c29378553bbf8;
 0xf35ac3925b66d52bde5da31655b11df9975be00efcbca7da24e85509dea2f50;
 0xf4957169958f20b8cb24ddd2c1fa8668bb5694fb82c2779a93e2d993c2a4369;
 0x7f61b3cc5f1220535cdc630b9033172c02afa0a7988a57c373a91c13263d805;
 0xe16429a495a0878289a4e187af2b3b9e0395ca3401938b70f07c0647273ad8d;
 0x18190cef50589e6c73faf348b5cd88be8dcbb44f37ecdf70e94a3b4045fb2620;
 0x4523bf1a8f284c6d95b310dec2b54e0e00e59b571dd9d46b6201c18e1b56dfe;
 0x227f232164c4e3c741afa130d206cd84d835e4817c4bab99ceabe0bf4da575df;
 0x1b1d09c8b7aea951d45cf1390c95b03c29f6820492ce2478739df09b9bf0fe5a;
 0x1bd040cdcfded9e6d08d3d6bbbf55a86aba6aa5c13cf09ff4cc6db28420a1830;
 0x2c4d2f16535632f050256086dd4e2c88479a1d3684ecb8c25fcf3096b3e1a6ca;
 0xead790bfabc7e81f7ce3b6d68134286977c619a13efef5ac110244721c097a9;
 0x8900754358a5d9716c6e2fc17133da9069794fadd42410213b5e30e7dba7565;
 0x24c0631f518904d6a003e225b34d3d02e2e5645f7c6bcebcf4f9944fad419f2a;
 0x9ec6105a057621f9bd18fe13e9dede1ebedce6d72461dc1c4faabfa1aa7f105;
 0x79b0343c865e073462767b20213ffa9443db0387c9506503586ee533302e802;
 0x7df63d142bd6c29ee03aca8d1d5428920a7fde6437b949149327c2967d14245;
 0x2ff26c8169cec62032f72ac25650a6c94a18afca7d04da0e3291d3ce71a7711c;
 0x164edabbfeeda046884e4f8595e438127c32f8467d9de721fb50a816688e33db;
 0xbf8306af475136a305a5a78b818c1f2d49ab9fa181c11de516e38a96ebf9f55;
 0x16da51bf32b4e134bdb05926f7b975562a7f2fcb671bf0584fb0e4d33f33638c;
 0x142930caa1828bd842e28c8790df9d033eefae7b165ddce53fcd46f86d3be2f0;
 0x1ae7e0a72e9bad383d09d0555a1f5a0bf1753ce1a17e254b49bef0fc899a6e99;
 0x280313df7e066df1cb639a4b30ea2aa78ba46720595d77ee31b55de2a713dc54;
 0x1ba62055d4a6b3257fa66b471f11be979422c05d3a839ee6aaffe7ac1c0b247;
 0xfddc6ca4b45778c49a7db293c78628431edc830512b7b1c8e5754ed2f39ff04;
 0x929d32df53f196e858a97b178b1d47e42247d5dcf37b08b4852ad74f9cc78a8;
 0xf967d1490ffa3280071a718013b3ae7f9727755d261fa1d85c3ef7b0559283f;
 0xf5490a89b5fc95c115da17e181a7e95b3d3d2229e73581c6bea89a0edf5421b;
 0x674bfe177fdc1301f1d49c2879734cae162898d11000050734402c75384c736;
 0x18e1ade3d71eef67b1499555516671ec9978a13c5da32b3cc87a373a6515eb66;
 0x1f9179afb7f5975be537568da903fe09944e257b2757934ccf2e36149021f009;
 0xc11a256c35c638a65f02d745d35712fd303bd7d3137311a1322339402479ee8;
 0x2ab557843dbbcbff147b3f03de15fe79e8d40e9cd6cc556b12958bee7a900f67;
 0x168dd127ba4582848eac364d737e87bd02024b8924b4adda31a9a37a3415cea4;
 0x4523bf1a8f284c6d95b310dec2b54e0e00e59b571dd9d46b6201c18e1b56dfe;
 0x2c4d427a7bec8d19617045360e52794c7a1a6de79c4e919698a87ec516366cca;
 0x36d01a16f30bd802544df169c77ea02c0008342cd8a415e67e49f2ab20538b8;
 0x104dada7b72b24405dc07a4feafa385fdd6e87d0eb0d0b0d461bce56c4f574d4;
 0x1d189ce1540193127426e68c7efbf6116be294f4e39c2ac7fb43eece2a5230f2;
 0x20969c1c5a7537d61331393f6a5a2ad15ebf51efacf6b61f37c08c8ea0823cd6;
 0x1727f8b0eb9595229baf305b3fc99c51d538637e2d2ea8931037c7350d5f96ca;
 0x1897f619c615a92fc082a589d89a7c522625432213d6a92fad9e2626aa0ee79b;
 0x1f62599143f1f32cd4efb433f14ed14544681878db55878f13e69694a226b3f6;
 0x118c2c92848d6aaeda5c8b61d8ed6953b7b659a25efae602f9961353f7c781d5;
 0x18997289e946839e6c3554194b87e6c0d4cbf30f47bc73b126d6eebe47a1cec6;
 0x130da6eb344dee64037fb513703caa96d8aaba83f7c8099308b4e6c82b14cd83;
 0x245357b0b612c4aeb12540db9ae1526513e7885ce50ee8ca0b58c5bf54261563;
 0x16efacd482e07f1fee18c96ad1725aaa33cac494d4e7301aa173f1c29a625581;
 0x1aaf282a0db417234b2f0afcd782874ec2a635899f3ebdf33f4bad118acdfaec;
 0xbb16e9a26f6e4449016a392f58cc0abdc15838cec0863a15cf24737b7a9c804;
 0x1ab091e043a032a1a8a17875c09930f2f3f8f014966977c7672e052387a88724;
 0x17a1b1b5e07302afe1156372691356ad32f77ab95b6dc1766cfdd4c02d260e0e;
 0x198f8c2021281502a922a03b04b3418571d4ce4f5359ca251015e477fd983d96;
 0x1cd705bc50da7642e8f41975abb2ac63593ce9575a0ebe0ec412e33c2955131c;
 0x2f634bc6e688daeb64b11b71780307d998916ea7db4cd7ac0761a03dd3fb1744;
 0x70efde061570346ca148955dee284634e28b4f5ef14d09018e289a5b6b5c643;
 0x129e1fa03e4374b6aa7cc2ccbc35e20a6124b84f3df49bbcc3f5aa1c25f8567a;
 0x872750e7e4e00867ca29aab19b0221191e89a4e7e17fbc0e0a97a6b99d79816;
 0x23e8c43c57b9dc6fd6b899818a44200e2544bf0865fdcac5b4256777fc765928;
 0x2a6b794cd03c70ef06885cb5ad01698f2340877a5a848c8f49ede93b5c9e830b;
 0x94578409d6462e7e25ad9d0816a6f6e2b198c464796c9c8d4fd566df266099d;
 0x1b2b611f853458bb3f92b07d97f4a8d0fe323b635959664d7003ace44646b9c6;
 0x205b0fa2b6f2ebaad41abd2b1feb4f7af003b5e73f91d342dc196ae182fbea21;
 0x4523bf1a8f284c6d95b310dec2b54e0e00e59b571dd9d46b6201c18e1b56dfe;
 0x18813c17a1991709dfc3d21cef51ad2b5a728731db369c24f53c9c18f7537922;
 0x28e2f1491faa1312b2fc0756fc93e6faf260cf3c9a798c4c75567e6e2450f189;
 0x2456cf94d7ff6e124cf859d5c41e4cf38e76e96c66356df4959af90e84caa6b7;
 0x19d01fae3e6bf2a3d738e5adc140ccb0566748abd79323db3085fd1bd3a938a8;
 0x15b9bb8c1653e644f0ce9be50bc599be543d181a965c47b1e55e75c128df6451;
 0xaf54a3486b44d6cd344d767948c8bab86a3b770730d578d35c946076ba55628;
 0x2c403933d9fdce9b2356ea5599a17ca6fa2c527472702d33a1bbe1dc6481585;
 0x1f8600480399291bcdb8f2bd4410cac16f4cc035599a6e7f7fc3896dc95595e4;
 0x20853b736e1ef67fc8dd165d3fe11a6734287efcbb6524fb6eae1a66a7b1e8df;
 0x2f4630a0f0018b04c6bb77e84776e06e3b2452d47be2d16220ead1da61106b20;
 0x2b9036c48f9af1b32085e3eae9f541c4ea7b650f1a5226ea661b9125215e8995;
 0x16e06530b370ba9ce030ecc30f063bc064d716de78cd74c2262d483406e0e68d;
 0x16965fc262e0ca879a932d721e95d16953229eea7b3e95cbe325b48bbf4e851f;
 0x282361e61365be447c940bc7b8caddef10a82e8a51423e7ce17f4ccc8ac6826e;
 0xe5f05bc3d2f27eaf48ba6efbb95fd33d29dd9d371afdb46065089f07b5aaad7;
 0x45e49d05e82f9c8192a3fd3c936e73ed07f0edd6db0007205695a23c9272ba6;
 0x1aec3601dc7eaf614f812cbc025ea069d2ad1eb2b1c8bb602500cdc8b4ec97d7;
 0x29182e5f19d8e48e13b7a98a19be4552f09b452d0e93fb876b3672cbdbd48d82;
 0xe82f9feb507fd178f0e2c0c324e07dcedcdc0cb2ad743ceeb4e2b62dd1355e3;
 0x9c0bf03083c7a7f84dad628b3528a89001d43100039491bb3729319bd75f304;
 0x1ac08c4bc322282517d3e9201c601823165882a09f83e43fac846c1620aa01b8;
 0x25661bfb76d976aa63291de2624e7f306a50ec4a32128a39bcbb6cfe34a227d0;
 0x2dfbf71289f57fad67be3438cc1f0dbc969529942a623a899addfeb77ef1945e;
 0x805aaa9f12a17bf01288cca68aec10cf08db6bcf49a8bb56edbffb97f6886df;
 0x2bfea7d79a17720df5f215d42ab5736098c83da075facb964eb2fef730b22564;
 0x297315ed7ac6f9bc92b4dd4a4052519a5029ce7c97eef84ff11a461864dbf9d8;
 0x172960704ca74222cdd9c8ebf1821031312b4c21cbb282c1f11cdee3ec28284c;
 0x14b30a8e90ee6a1e22fde21503094bafa3d61004b38a69cf94b493e101a3dd29;
 0x4523bf1a8f284c6d95b310dec2b54e0e00e59b571dd9d46b6201c18e1b56dfe;
 0x25c2fb93758a36327dbeb7dfec90e331cad05a04e5c84e6b40e65987d73ee448;
 0x15be6f22cbd5f38ec70f9133e8392e8fdb41f28d831c27bcb36e415fcf9fe843;
 0x1d2187e9af970cefee949d0888c73dc41e7e257e327a9f20e4648928551e062a;
 0x699ddcb91e856bd25bec8b21980bbb163d38a20d47fa9d813a32324e80ac79b;
 0xfced0a1de64093947616ade5773e0f7ba22eac4862322dd5ec787fdffe3325f;
 0x27768b29635a400d365c934202e4bded719df8effad85e6eeabedc24a4154888;
 0x1b1f6642ad87106cd16ec5421b38c40392423fe0d12f282efc8474efeb957d1e;
 0xa3e365d3159084cc673a44044bdd4260e1bd25b74f746772a3c77ef3e48cb9a;
 0x24179d5e64991d45a0634da43510ccf0a34059695e151682b9d356411edb7cf5;
 0xfbbbb67aa88655564de38814ec6376f4da97ee274586c5287c163d1b0f98dd5;
 0x11edd5438d9b4168d6e2bbaed31f31ea464dbab80ed5e702126fd82ed38350eb;
 0x1b76cf5e219ed4bc311a00cdb03e28ffbf86542cbd0252d0715bb48469c15dd6;
 0x148437b32c2bc48962d356ffcaa4edc05be984134fb75f3956d5d91044f79393;
 0x10942207a5f66bb8252988730fb82f23a45be26389489f66da6fa113a40ab0c0;
 0x124681e28623f42196e8ad7bb2374c77487c37485bba1a9075859582d10c061b;
 0x2f9dc5b15dc408e7e97ead3b9d8cfc654f6914922e33d7bbf4c061cd8583bb2e;
 0x11597e8f45721d0f8a2900ec7823302003282aafabbbdfffc64e5f3caa274777;
 0x14ee771b1e80f23b2fc58d2f98d43a75dde2a5c7d37fb0ec3a90b661ee4f191b;
 0x22142acbf84a03df8d16dd2ea6dad8b4100f864e5dab2f6afaa6a4a36612a4c1;
 0x17cca25c3d45d22a57fe904ab20f916d9b1890d5b7f70f56e5732325a790e637;
 0x3120041b1c3a4c87445672333283fe28d18f05deb5c7e9fdce6cda7fa4d069a;
 0x965b18e93bde84a1d8424a74e69eb6aae7a73fc920e5cf5e86410a46511ffac;
 0x3601f2a0058f85efa835c5ef0276719f80779d854e881370a3d4150a68a4b65;
 0x14f0454cb6ddaf09579651aaea20532036ee6f54bd9893614b2eadcfc041d756;
 0x11844e3d73731aa76edd24afb82a49d60c861eaa25579c45fcb23de6a45667d3;
 0xd49b3c8de5c8a009efb91116d019f97c01ee5289ca666b6807fc89fa0697e32;
 0x15ac66208d53f730d995abc5cd72d50ad90909c8cdce17c5aa78bc0b274a8571;
 0x1c9c5cb02fb78be508a818a070deeb6963c687dce2975aa4593a89ff1ea675a0;
 0x4523bf1a8f284c6d95b310dec2b54e0e00e59b571dd9d46b6201c18e1b56dfe;
 0x210b5dd8b7bfe15189d3aea8e53b5bb7b462204e8eae1f9596bfbf1cab727bcc;
 0x1e72e11f21abc22a4f68b374dd8726a2c72f9891deb6536f3a4bed98cec40858;
 0x1d0ea48d109e37ba4d144a4251066d6d7b7910bf92f44aefe7081027e1e94ffb;
 0x19c6c9e54dd8314a776b1b1e8d423cb2fd5b6d4951f3abdf7176875a0837b3e8;
 0x1722bd20050713407ab428b4a1598dbce86e6a04f9093d0d415b546bc1d265e9;
 0x1bee9ee0577f4a46e9500f2066dfbffcbaf775211450f521e13aceacd519010d;
 0x4f1c326c88072a05332ad14d25ede90d430394bd8e80321dd6869a561282e37;
 0x2db49dfe6b2f6f8f38102e019206a908503e268cdbd5fd7689855932394952e5;
 0x18cacf5fcbe1e383706c2ae6e294c691eb86074e611439200f39b49db2739409;
 0x251e39efdd606e5efeefe439a1d01dacfd6c29729472ed884160d4018d1e510;
 0x20ca4abd314e386d0154234a94bc5b85522a1730c005528a74d7f2147e449437;
 0xfd8d3092bca7b55b7ccecf94172ad86eeb0336257108ca5a1786cb88be7249f;
 0x14a262e3bfae15e0345a1f837f1343b2b245fa3dc706956bdd64a74c48e86e23;
 0x21e54491928f3904814373340aa65a0f97be52dbead9b91011fc454b2dc8f6ea;
 0x1a41918b8c68ea8d675330f618419302cdb44d7c4821561bf3f75f10824cc06c;
 0x21930445fb5f525159a17da94a2dd4d28485794801b0c9a694b03b849e0878da;
 0x17535af3d952f2a356554ad0183697eec1c86ed9db1121036de89df8f758c7cf;
 0x1a82f3c943c80fe4ee37b238146142decb389d69918a0d7abd97a691e2ab80f2;
 0x53b942c6f210f073fa9c58f6e607da4fcacadae35e5bea34eeb6a54cca2eebc;
 0xd34f91b743a6ba52c32052bd0623804fc8cf2bd384bc98002434a2c9614337c;
 0x2749b7c85c71adfbeb5900b6334c4dabc9925e9885c9a525e74f1edb1e630a8f;
 0x2284a0f1ee6a86ff447d51e642951ca76a50fc3f4c0d009228aa67f9a9b1f953;
 0x22c7f25053d11e887909b02af7de7e57f5b5f9d37ff75acd8ccdbb74b717e23a;
 0x29c30ea916675045cb996f3d2f3662cae115e6822329f93a4d159f18afcfc49b;
 0xe555cdfb1576e9bb5cb70a9234a6e9238b912c9d65100f2dd5f3130bf5a000f;
 0x2f16e6a9e0bd6fc0b41d91bd065f60dbc36179607545fd58f0b1e6efbc86e172;
 0x25f261e99981d3fd2b094a13dfdd14e1ace2d0100973ce0331081826b8c69ca7;
 0x14d1b4bde07ea82505ebc4f4f9b599ca214a099e081a286a223bf8309e9b1348;
 0x4523bf1a8f284c6d95b310dec2b54e0e00e59b571dd9d46b6201c18e1b56dfe;
 0xc2161d0dfe1fb1b030d25ba9e72e2d0f9c7be11edc3ee0310dff7dec3ed10e0;
 0x1de725c7f6c995721e1a1d0a90cb31563110eeaf81456a3f8a9809440c9e9e14;
 0x12389968950116f0177afe2b7732608bafa5e8d50393668844f9db50455729a6;
 0x17aaa2062cdde57f4a67c7052c0990ba08b3e874633dd41237cb6094246d678c;
 0xb9984737ec0a6541f484c9fe4837a7639b58d017cdccd2beb305a937a0b79b0;
 0x320982d756176f852dcd74ce8be156b5d7f92db99df5ccbc5cc96e93d83773d;
 0x2a4319d0bc04e4c18b9b105983c8744ca4cfc428f20ea477e9a60441ca15cd52;
 0x182b9434e89db547bd499a5122ad77854562962cf0435e21d960d1c4498edb5f;
 0x1d26abc0becb0e422d36f4c59b34f6fe77ba771192b2fcadc8cd0965bf0ccfb1;
 0x958a9dce1b6a17620dfb54c364af3ee428dc932d81d1dc4669503840dcb541f;
 0xa8a70a8379d71136fbe77851617cbf9d52257c32c9c3ca4c8078c90ced7160f;
 0x208a9a840025bc0c38b883213fbbb42c311c4d7a3f1c2d53924999892fa9f931;
 0x1f1acec1766b25775db439929b1550734fd8204b77afab09e4251a2e1e123664;
 0x387e51920edf06b64c6bbf3aa91d6de80a4c3a6a55493c4cb038f55ab379b97;
 0x283a3b099b37a60369426569295e1919635a5f557c26e2d9bd62024ed42f6cb1;
 0x3a82b07486a61e769d4f4a9691129b1497ead1ea2dcd4d44fdb626b31fa4c2c;
 0x15aea7b6a44e01bd2a1993a824bb751773d6ff20d3459974f00602982b20f837;
 0x91383aa8ee58024a7d0eaacba661fa0afa042d4490bb02061a005799d8926fd;
 0x1c4738d32fed84629967a249121d25afda758ec66b825730f4c0171f05981826;
 0x5e10a29beb202a5238338a3cb6f3ad81f78d044a791cb03cfd63367678373c7;
 0xe3405582a614f4ec28465cccae382ee3e56fc67f4574846f5a011c2ae4bb316;
 0x13c2e18736871254346e7951da5758a3bfdbaea4a37c62f5204e2d833c9ffec6;
 0xe892a08fd4d17f277eb16d8cf6ea60a8ab263ed317c20970c54e02655bbbd4d;
 0x38c23026542424fca9729f5959d6b7a300d7c8663dc2de7d63c98fb737c885d;
 0x242560875a24ccbded928c30e4c78e28f36975b1767933888f3a3eedc4e56759;
 0xe32ec6d6c80d3bac0aad1635fb195ab640de35ed9e19e60033751b9b17b7938;
 0x127f81d915a7546cb2d35659181f70a31cda6b1c0f011cf3d4d2d908e44755fb;
 0x2feeb1c3f308139ae4f23ced4a2bd3df75c7dbe7ff9d89ab31405ff4e1f88034;
 0x4523bf1a8f284c6d95b310dec2b54e0e00e59b571dd9d46b6201c18e1b56dfe;
 0x1abfd157d65b0faade670c600f964a0582539691f909a27f1342ae7f1d1f1659;
 0x287edf9809122fe7f424748beab604c04270dc4bb549932ab49db3e42ccf675e;
 0x574627cd0b8f02033621b45ee0293376d29811f14dc701b6aac4565c5e2346e;
 0x13be344cefe3cb23d84de26cb8dcef9ec21de4e275675cb81d8e071b52dbbc54;
 0x2bd04c2debf244a79c22c363e0656dca89ee4a641137602268796e048f222ffe;
 0x21671759ce3b7fa3b8dd29ef4be836d011c802e90a5bd2850db423f0b84b8f97;
 0x15e2eca1f4f24c534ee99f492613185b6eee35daa601ef5c73ccc1b2183b5928;
 0x1ac428a1c403acacea5b19eb5a9db448badb082eaf12a0bdb39e33de1b2acff5;
 0x18d056fe0886b5342e70987aa78d6760e87ebf840fce54ab3790159a2359ba63;
 0x103478de82699756c898690ad0431b1a62d0779b072728b2e8f9f1c3dc0fdc44;
 0x3ad3345d4e0b9af20a5acebcd23f067ccd8aad3109ac7d180430242a083bef3;
 0x84a2a0a197a762bd6c633ed789ae1c92af3d189421801e2cff4ca4cb7bb4b9b;
 0xb9fac3f1b5b7769bf369780edeae7d4009586d8eed37df7613d8532240a4b2b;
 0x2b6c5a5b0b2e999c52d385c1ec41bf6fa8bee62c6be1e4896ec6eebcb6577f;
 0x2b891566a83432ef436b4c379f8033c4297d73e413ab6d3dde28a446727d6d01;
 0x215093cbac4cd6a567810f829abc65d556c7c7d81937770546c68fee9b0bc5aa;
 0x59542cf02d9ed7aee0b72da0ec5092043be68c53e4207e4c9d05cdee2620c95;
 0x2c5db84b283b99e21c2d7387fcbd3d71bcc262ceb616379ed537e29d3d4f4511;
 0x23a84bc9d5e7f467120927f9570e3c4646a6ab1d7177df4a0972c42588ea47da;
 0x1af62c1dd6f9e0526f8c4eb716f2cb087122b6efbab08fe32af30d76825c7e59;
 0x240df1209a4dc3cfa2e57e4e0b8369b81ae2d530ee1e022f45476ef3d5541f14;
 0x1d663e716dc9e681f325217cdd3394e128afe26e727a3e74df24263781c370a9;
 0x280935cb8ce696be4fa88e7502cf01612d955d783b8703024a85cc776ba98bb1;
 0x13dcbefa8c14a98bf73e722e6aa233610b00c4687a29badca7ce239074b0b6d8;
 0x10184429c03a6a7dcb093b06a4180cf8c2b1ebe3786a5a58149398a80bf85015;
 0x2b9b91c8e29a94d655338b761838c1698e4b8cb751a103b0a35bca7380413e61;
 0xe8036f74c51d11dfc744f686ee20f62dfb45bf99bbdaf43a5512b087566369d;
 0x1e20b85a64e45febbac3f5fbfbb8b1efc111cd57c8cd56e83dd51bf62a4b2903;
 0x4523bf1a8f284c6d95b310dec2b54e0e00e59b571dd9d46b6201c18e1b56dfe;
 0x27d3fefc3fc713f9ddb2e3fb5a4943e55c336d9881f463532e63bd3257825095;
 0x64c66b3bb1fdcd169d3d15cd51d5f7b598642e290207911002b652693f48a9a;
 0xe9a5387f39fff6e25b4c460cc50c1d9a9d772e889ad7b3d357f016eb7bbaafe;
 0x30372e3fd7ca7cf85f5c5fce64deffc2eb2f6bc1f0f81b9447ced714e4dd47e3;
 0x1c698c1fb76b93d6036f01961482e8db670da8178aa66c57ea8d6f02218046c0;
 0x165745c3218528545f671cd07fe2a521f2cd6a5cc268601b120b9794a583b2f;
 0x1bd6ac92ec06f6ac1f1f348ce1f5608e60679a7a13c7d37f881c147233749072;
 0x646a2c8ed477619f611baf19f5f2315d030d93485d7c72a057d7521b05126cd;
 0xc5d7ece37cb949c5fcf9dfd72b620951ecfa5411f8ac7f9cf6706346077b2ee;
 0xe0f95062611089d30cf1641ef9f5142d5c09677428dde2a5b70990ce98862c1;
 0x1167dfcdef684e802ee0ad2745b448bc9488677fb4a9f21f4306ad438e8a7154;
 0x8b58d9c87ea695ddef4557a17c6c6ce8b34b20ecf1dde355d4f564f529d9e52;
 0x2c0c0c0caa80990aa8b3db0b093748f6d4148b7d56d6ac8448363d592d495bb4;
 0x22cf8f510e15dbb54dd7aaaa9acbb79d93c91caa6790069822f17eadc58f3bee;
 0x1dcbdcc87c651a39a1cbbf4a2429512ef5d3d5d2ef8c2c272bb11943f15dc73f;
 0x268f76f1dcf5f445f31a5c3e2f77f9370f0c039da51a0bcf499e89c50dde72ea;
 0x12ea4be23cef2bc588a2c5d3f0a473d86fe2e62aa05e4993fd8e3c3a04fc81de;
 0xaa8a1b42480a433972000e6b714bd6205cd020e387ab80ce788b4d244893d9b;
 0x9c9635e93ef111fc995b0f41181d644507a96adc5036626025d14c67280340e;
 0x2f19542276afae3f9bf2d8bc1ff25277634b5e44631c88a3ededd309a35fc238;
 0x2bf08e4ad9318465d011b6fad36953dd572e1a06e6ae04acbddcfde42ea6c978;
 0x2e415ee818590fff4a8eba14dc2db89eab455471fcb48723a23d28bd07f22181;
 0x2ba1b1348857a0dddb145fd370c4a5145794b555fe90aaab30eaabbb831e57b2;
 0x2c45b38c22d1834fad94146ecd9e2084fa0801d4d2500d3c9b02dfdae2c686d5;
 0x55fde4fa51238ae151360d0bb3e53d6bc88454434e0a3e7e81886971f44f1bd;
 0x1b500c091d518878d60bb9c1e46487120fafcc07d99070f6abeb94cf72d099c1;
 0x1507c80ac988a1d66a9b7d7e0d489e3dfa903dccdd39cbe30d66e70a4465cfda;
 0x2c5389c4c3d7db5534ec96975e24b341bb8a3950817c95fa6886ffa17e3729ad;
 0x4523bf1a8f284c6d95b310dec2b54e0e00e59b571dd9d46b6201c18e1b56dfe;
 0x220d668f431ca31318ddab3a7d699e1daccc2681c19e28782245bf06aa393eee;
 0xf82c73508a680275741c5449a2108b0b4deabb7adce05695c6a9a56491b09c9;
 0x81d2dcbe555ead7fea3650ec79e20c01aea1bd8694204cfcb53f440ee9f0c4c;
 0x12d6def4feb3b9695f3a33305c190d41b44360fe4f7edec96b9ac2ee5d19d237;
 0x188a70595236991b549396dd83dc110ab7848143320ffbd8bfbb8d067daa0dc2;
 0x1ee5cd9ffc83473d252da6d5f220a32b0f14054ed87e47d163f611b0a03c0500;
 0x336f443081e4e4ef2f80daa0d427376db59a5cd44d09c4ca4fced8213c49792;
 0x2e31f59a54ad75b935c7968deccae44c7651c6989e7a194d8eb75db56f3c8e6e;
 0xfc66fe6e89f9c6b8fcfb1b825a394b791404b4c535db02105a0cf9b814718cb;
 0x19392614602253f18fff6c6add01041fbf1ac573c430bafd1be9d0bed661f9e;
 0x26bc696c9022801b5558f13a240c2f2595cba3d923740bb15f857012d65b4e30;
 0x3e41f8254eea920e176dab66a494aac26a9050a6083321aed3e9c60da60f30f;
 0x277e13cf936573c9ea57fec54bc20dcb76b9bb22e43dd7d3f0c88ccc4350d4cd;
 0x100790eb28152be3bbec49d19719f1e819559e0b83cd3fa5f55b3f11e2ba7c5b;
 0x8a5bcc49a8ef4b71ccba577422b91bf7b0eb873ed4f819a03f84b7b22b3748b;
 0xfe17cdcc7b34315c294c9afd7ada649e535d66e18bf207d0627af9b985f0fc0;
 0x8423e16c6102fbc4eab76ad8b96e75ab86107261c8be93c4fd3312a65ab5bf3;
 0x24659f4e6909f198d2da3d29a4be15ff86b279a012972befc5ab6d55e6d38807;
 0x145fb5febeebb5b6feb24341d5ad656cbe31346d4146c778f495fb1948270c4;
 0x13ad1e400a7375f25b79fffb3e0ad1d1022bfb6eec76f9f2762919eabe8d63ca;
 0x1d087711ceeef2c9423d13cd5d262f9c6d536fb84d1c171bef1feb446ecf88cb;
 0x2a914d202be77991a1357bb453bd09062b6073f195f314e552608fafea4fb38d;
 0x1660b2ad261b31ed9a13147bc1ee06a9f186e70cd619111a21b51b33d2d1169e;
 0x1bcc7790328fa163162a0e8544eed39b1a7a96cd61e0aa49b117ae18af29e75f;
 0x2ac02b109eeacd4b06cb5378f08cb37d622a856d0629fd3bc03d8e2cabe54ea8;
 0x30616182ee240c6e1792a51a9bfe54aa6851cc10b377c468021dccbbfa60a3fa;
 0x37e7fc430f341384ae6aa7f96a7173a91f7d896e77d464e1f8fa8c470e187ac;
 0x2c238e1df2dcb6d7c94bff7c9e3a4951fe54db4e926c431fb6332e3f6ad23da4;
 0x4523bf1a8f284c6d95b310dec2b54e0e00e59b571dd9d46b6201c18e1b56dfe;
 0x200ff178d06931904472b00fe23a8a113d17ceb33d6d0c910068fd5168a541b7;
 0x2c3afc766aee27aad8b1ba9fb14b3d56e2217c9c7e9ad3363d56fe5b31721680;
 0x2128f1a125e0c64edcf0d03a397dbca56375f0fb87ce41480e525c2470391e7d;
 0x9c62fdb776c4fd510eea089910bd2537f8efda0286768d88a2c9ffd4b8151f2;
 0x20426c548d66b90866a7ecd77278c69e33b3d1ab23f0801342e4064b3be82618;
 0x7adcb9b76dfa25de61d2902ce37140c9cfc7d51fb2f8ef8e2317163f06641d9;
 0x914a79c6d02adc94876ebafea2b8e6ada5ac238e7320147fdfda370afed4e94;
 0x3a5d3e37105e1d08281bb2840176dc462a386409ac1e7eac82be7dba931e9a8;
 0x12aa83b029bfb3b8f742e689995ddf71c0aa28984dc073e73a38aa8dd8a72de8;
 0x1b293978db1884bd8802eb86d98477a690036f148d0a07b165b9437a87c8d30;
 0x29f5d2ca3bbe30251e5228e63e1eed9c906c4d98647410c4a3c74315101fd5ff;
 0x7bf47ac1aeee2ae48457ad8031ce6b2c072a65acac7427ef29ec2166c2d1f1f;
 0x1316c94951ec5aa5a37e96922334dc116d22f3e3fb219f8195e25d93e62d282e;
 0xe5a891e769da4c1b0d10fbde39d81225fa6c48216717edfbd9443541130abd1;
 0x10a84451b6d2e943ef60255bb33321f4d3eae64981695a27bd75d7c72cd85d;
 0x344e6fa9e638ded4d99a92b2dae4381ab2401aefd50558fd8ea90764cade9b3;
 0x28a513ee6230bebef34ead9978b224ec3d8f252f2c3956a781854d04a293d5a4;
 0x1e21c489a47bf56a811404304e04714ece44f376ce998e3499ba91fbcb0fd207;
 0x2563badf855b5dd41a35570028bf5d97e9430a60962fba0441d52860765a4120;
 0x209333ede8112c2a18bed033eec46e7899c53627cbe5d7ff49e932455ab51612;
 0x1b740c4dce2fa0cf3af1053e8da92456db1f2e31c99caa6918c8297e3350fe88;
 0x2310a0173db9d135f259497b3f27551d01feb64d4e0cf2233f7823c8d4e16219;
 0x2362c8df290b748b65a8680c1ce2c43c5fa82837c5f84f8107c12ca823709f6;
 0x24bf53879bc6be25827e47537248702baa3a4773fb5c17476e142e70ab17cb69;
 0x193b4986cecdda54bf346868bb20f1d62e3e795ae49a775191a01eaa4bf095af;
 0x171de60c3b1f06108a0ea4c621016c0400fc9b96af211250f9c25062aa3f971c;
 0x170208c0bb8840367fc496ede9af48ef98913cc6800a76318fd8fef208860c19;
 0x19305439f5cd0d17d75d1981b097bf61709a427cc09e83e6e983b41bdee4d8ab;
 0x4523bf1a8f284c6d95b310dec2b54e0e00e59b571dd9d46b6201c18e1b56dfe;
 0x14d4a3a0742364a9f659b29349bfa5455751e48da07705179afb0d01e8989db;
 0x14507c7d18dbf71926567faf318f25bae7d15d1627e930fbef4dc76068a1eb9a;
 0xab92e37d54cdf29da56dfe18704f6517ee8894c9db8e42ac9d3f8c80009e6de;
 0xd3a5cce50b706d0e2d5ab6d99cc5ee19d414a99901ae56d8ed2b90c70161473;
 0x1faacbc551048977f44fdf37a9c68496027dfb6de98761ce68087ca0892cf084;
 0x82e2d6fbcfedb2a32622e4c9f6d4ced6cf0a570062df9b838c4684f4a8f6c2a;
 0x15345de0a699ca5370e036b6b65ee4d4d3412d46901b471ca44787cfba69d203;
 0x125429d4185d9e71c4e428cc2cd6b98da229e56e941f37b846d46c6dfccba94e;
 0x10f072b77d74f20ba0d03b4115303bf37ea98a20a51f03b54756e770e3503601;
 0x3a5a00dddccd6eaa0b88cc6ab2ef6b0452a206a04bb5bf2361baa3f2136b2dc;
 0x301071c4a6d3e6b3e274dd6ecd6f5889e65e92dcb190e6980d8765f946ea5ff7;
 0x497842511b8c65d38dd10ea79c157976239b771f5ee8a72930b45c15b0ce6e4;
 0x1a7f3811571bf5bcd0786a27a61702e4165a02f734965b52996a6cbc1abf6248;
 0x29b6c15ea8aacdc694b94efd98045716dc81aa60c6ae224970ebd0395a6c2039;
 0x1ac6bb7492d1e4f715604b57a281164ac925c56efc0cd0fe495e189914f1478a;
 0x1671405a7351ef20e4b093337091a308e1858d50656a24a08993b416dd0750d5;
 0x29784e4a72baef66066c6b4a580e5ee0d6010543ff0edf90ae6177bccbe3f34a;
 0x15bb878d0c3129d4ae1e3203a7e88cd90f025c8ba652403e8be7241c2908a334;
 0x145ff66f889d0eba5e243c1c4780f5ccefc25775a82f555aa6acfbb1e6f44792;
 0x2397dc005d52a49fe64bcc7e71398f4668e4b1d7d23e2cd41f5a240b7fd2015a;
 0x104fae947bc81f5ebb40171e9ce8e51d91d558d686cb92d39ab245db3b7f980d;
 0x11d92195df064b6bc2f2702af25e1d57a49adc4774f769d32b632ad5cb29c38a;
 0x1de8fb3988b840fedd6f1ec8f4156fdcadb7781b895ac7267ff16635a57cfa81;
 0x27089624e599b1c50dcca8257a778965238f557d50adeee696f52f5656affbdf;
 0x1e5b7ee2346227404b1492732b5e6f36722d8bb7c99f2ad8f48c6123519218c1;
 0x44744daf2989bde9d3d36878bbd2116fb0e6f03f36ec8c360ac7180c6a87a9c;
 0x18b6b8ae538910b9634a54cc1903d21f0e9a4626abe012f424ff26e7a4f389db;
 0x1ea586928d1078d44a1a4bdbd2e566b924a14187c428717894ec06f47d01269e;
 0x4523bf1a8f284c6d95b310dec2b54e0e00e59b571dd9d46b6201c18e1b56dfe;
 0x299ee7098c20a8d8485fb78b37b5794235fb37625243103d86edaac65fe67351;
 0x173d58cc84bfde0327aa48c131cab0183f9b471f25ecfff26cd950bfb4c4f744;
 0x163536baa734cee7b3ed0d01cf2dbefdfa8e8f5b26e6fe1eac9411f87cfbdb7e;
 0xc348237f64f9f76bae51d147a191aa505fa9134ddf66975b7f54ca99b377894;
 0x23efe24fb00b171697d7a06849d9eac5e14e032631c17ac0dfd273eecbaaa293;
 0x1e7878f760e864ef15b4039e253047ddee33b082b6e3ec3828e35c184d455a66;
 0x2bef7ad013467126fe0cd58abb1dc92d50314c8ae9410163fbf8c886f86fe02a;
 0x2202801fc79b3c1ce769d85ac6bbe8b8225e81bad63c2a26fdbd813eab14a147;
 0x12a9c7120c9ac72e58a53bec642e04890a20bd2080b06717d971c5cbc74e9d31;
 0x2dc68da29a775c40fe59bfb40d1bf330871f453995f7cdef71b67e14356086e1;
 0x110afe2764fc7945d4fb2f8bee04cf7b8cb3859bf62c54bb37d0cbbc8fa283e5;
 0x21ef54ad10c3962befed62137a17e8cca0ef4476d68f57cb31290cbd089e9123;
 0x1c4faa0f27dd17f4d20fc930a295dc90afe4b2b319b72c7ab3d5d67fd659a716;
 0x496dac1141cce7811aa16c3cc7ee5bf926b19b57e4c2a3fef441f6a4f3e5e0f;
 0x1124c584f931153f9eb51cc7bf62a908c7d935eeac92ad89be0cf7b3b70bf0a5;
 0xd60e7160e15c49ac0535919cfe58b9bba626b7a560d187d93c02a2013d7a25b;
 0x1fb86c2a75e7eb166c625ae15189b3395bbac9ca27fc7140420929c57f254dfe;
 0x302e9af922d3af8a056f402150e34809253afae3405b769561958e2ece0eb937;
 0x208a3e5caddbd869846894744991f2d5b855cf126f2fbd0da3c7655f6c44e6a7;
 0xfd167a0ef538adf695b83b0c7e2b65edf204f994296f4154adcb45d5afbd5cb;
 0x1231fcf2898720a22a2a98204af8bc2b06e0cf72daacaac1af1b08d1310e2b30;
 0xad52af94770e15ede8be17b72e4f2bc1bfe73902d78b7f3a52a254898131b43;
 0x63dedd90276c2738935a71b3acef9d2f2dd3b9bd49e54ea8b62261422d3d77d;
 0xf58416b4af85510a6f3becec11d8db6c097194ed62d4a04e5a2a295011a3bff;
 0x15933b922f212592a806daee6209c9a02ecb21ce2bfdb1353862d7629df1ef97;
 0x1228654cad70cfa7a1f1f30b4cb5d9279d2f49bfc233411477c333cb630256b6;
 0x1b099efaf6a089382b0231daf9a65505b77b54b6af4491365b9316f988bcdca6;
 0x75756cb31cafce46aff3d873280c21ab9253a0c587f5a5e107364178091e73b;
 0x4523bf1a8f284c6d95b310dec2b54e0e00e59b571dd9d46b6201c18e1b56dfe;
 0x2e36976f35a34be56bf3881e93370f08203d1f8b0be967cad4ccf4d9d2c83c52;
 0x1650b34e0e8b2ad5ab5de19ff253eaf6dcd3e20d22bc69539c834437e0888513;
 0x2154f3f4c1b5b2a42078df70bd1c6b4f042ed01adcefe5b603b4830008715af8;
 0x281286cb63e657f78e369c0f6db3c980cdab1e57fdcf32505ccc325e7a9e8c40;
 0x3008b3f202e3d206436f7dac2412d51744cccbc8e1ac457c11e0faf6d6060cf2;
 0x2c0268fe5d032bcf88a2803e4ddd2f3e1dbfb58915b47d0fca518043272d5b27;
 0x22e8ab4fa7bac348cedbcfd376a8ec6512fdf78adf936f6548594d6584953227;
 0xbf717c0f092d04fa4598afbcc898ccbcdea3eb9d3d1f5042b0f325ebd57028;
 0x1f500e6028390530690b82421f359563c768803db6fb3d0135c5366c9cae12c1;
 0x1b9881d9fb9346520e1e411de0696df0a4dac3684a15c02154dc0e7fae528484;
 0x24ecaab85ce3beec4c380c207c564f4ba6995c3290f2766a89b73010eacfca19;
 0x756a8ad9f562abf2600b8dc808abe6a2bfb0d4352824251e07be2c0e64dca67;
 0x2a1d50d0f3da33a873e9dd5e5e2966bd40445c1e6eb9504dd4b276ecfa0b318c;
 0x1fad2242540d4366495a5ad4fb69ad25b8261d2e1ee56d56669be07686e9217d;
 0x113ad8b46c3eec20c9965b5a7b2e8a51529871d0401b4de6f63de9e5211623e2;
 0x1fc50a16dbdfa1c3b99038f47f81a1c5d1ef6e7b221d4ccca6e821220130e000;
 0x1214a9d6d7288fe85651a8cb83048c7669c83b5ed82ca2642fff01e852a44b4a;
 0xd421a7c25af5538788f49475836712af5da156f88c5867568cd958e305026cc;
 0x2de8ba83d2b6ab6a711fb9230adee1cba46de8c930c86d266acb8c1cb9684e24;
 0xea7be82f1cb493b1bbd83ab7ca285bf0a1559ea05c3f59827b3b013d0a91fb2;
 0x1e3ae7e5775d352651d713ebdfcebf9ca8e905cfb792bf7874239450f914c8c5;
 0x5943e3618a32cf050018a4e2375f4d027b8c14ac82a0de57cbb90c5122a64b4;
 0x603755180f66e98215d61e5346b116cc00cfd058274d7d969b3af95e78bb335;
 0x19817db66fdb8215ecf70476c4044c3f41d78ac5a549c684e35845947dca0b11;
 0x73965f7a9ba8cb33a955d42da55fd7c37a3f0226b029d36dcb3fbea95d642f3;
 0x9a550431430846b6694125b5642b00607f36a1a29485361a3cf427da77eccd0;
 0x68eb4e9d6e0a588b61a6ad501f380da0f009067666c0853d156e33d59c43515;
 0x225e00a0da5a7f7496b70d0923a7cf7ff332bff06958cc0f3fad439874f6024d].
