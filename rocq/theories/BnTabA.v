(* The Poseidon constants of starky/src/poseidon_bn128_constants.rs (c, m) and
   starky/src/poseidon_bn128_constants_opt.rs (C, M, P, S) for the state widths 2 to 8, as the
   integers their hexadecimal strings denote. *)
From Verif Require Import Base.
Open Scope Z_scope.

(* poseidon_bn128_constants.rs:4-131 *)
Definition bn_c2 : list Z := [0x9c46e9ec68e9bd4fe1faaba294cba38a71aa177534cdd1b6c7dc0dbd0abd7a7;
 0xc0356530896eec42a97ed937f3135cfc5142b3ae405b8343c1d83ffa604cb81;
 0x1e28a1d935698ad1142e51182bb54cf4a00ea5aabd6268bd317ea977cc154a30;
 0x27af2d831a9d2748080965db30e298e40e5757c3e008db964cf9e2b12b91251f;
 0x1e6f11ce60fc8f513a6a3cfe16ae175a41291462f214cd0879aaf43545b74e03;
 0x2a67384d3bbd5e438541819cb681f0be04462ed14c3613d8f719206268d142d3;
 0xb66fdf356093a611609f8e12fbfecf0b985e381f025188936408f5d5c9f45d0;
 0x12ee3ec1e78d470830c61093c2ade370b26c83cc5cebeeddaa6852dbdb09e21;
 0x252ba5f6760bfbdfd88f67f8175e3fd6cd1c431b099b6bb2d108e7b445bb1b9;
 0x179474cceca5ff676c6bec3cef54296354391a8935ff71d6ef5aeaad7ca932f1;
 0x2c24261379a51bfa9228ff4a503fd4ed9c1f974a264969b37e1a2589bbed2b91;
 0x1cc1d7b62692e63eac2f288bd0695b43c2f63f5001fc0fc553e66c0551801b05;
 0x255059301aada98bb2ed55f852979e9600784dbf17fbacd05d9eff5fd9c91b56;
 0x28437be3ac1cb2e479e1f5c0eccd32b3aea24234970a8193b11c29ce7e59efd9;
 0x28216a442f2e1f711ca4fa6b53766eb118548da8fb4f78d4338762c37f5f2043;
 0x2c1f47cd17fa5adf1f39f4e7056dd03feee1efce03094581131f2377323482c9;
 0x7abad02b7a5ebc48632bcc9356ceb7dd9dafca276638a63646b8566a621afc9;
 0x230264601ffdf29275b33ffaab51dfe9429f90880a69cd137da0c4d15f96c3c;
 0x1bc973054e51d905a0f168656497ca40a864414557ee289e717e5d66899aa0a9;
 0x2e1c22f964435008206c3157e86341edd249aff5c2d8421f2a6b22288f0a67fc;
 0x1224f38df67c5378121c1d5f461bbc509e8ea1598e46c9f7a70452bc2bba86b8;
 0x2e4e69d8ba59e519280b4bd9ed0068fd7bfe8cd9dfeda1969d2989186cde20e;
 0x1f1eccc34aaba0137f5df81fc04ff3ee4f19ee364e653f076d47e9735d98018e;
 0x1672ad3d709a353974266c3039a9a7311424448032cd1819eacb8a4d4284f582;
 0x283e3fdc2c6e420c56f44af5192b4ae9cda6961f284d24991d2ed602df8c8fc7;
 0x1c2a3d120c550ecfd0db0957170fa013683751f8fdff59d6614fbd69ff394bcc;
 0x216f84877aac6172f7897a7323456efe143a9a43773ea6f296cb6b8177653fbd;
 0x2c0d272becf2a75764ba7e8e3e28d12bceaa47ea61ca59a411a1f51552f94788;
 0x16e34299865c0e28484ee7a74c454e9f170a5480abe0508fcb4a6c3d89546f43;
 0x175ceba599e96f5b375a232a6fb9cc71772047765802290f48cd939755488fc5;
 0xc7594440dc48c16fead9e1758b028066aa410bfbc354f54d8c5ffbb44a1ee32;
 0x1a3c29bc39f21bb5c466db7d7eb6fd8f760e20013ccf912c92479882d919fd8d;
 0xccfdd906f3426e5c0986ea049b253400855d349074f5a6695c8eeabcd22e68f;
 0x14f6bc81d9f186f62bdb475ce6c9411866a7a8a3fd065b3ce0e699b67dd9e796;
 0x962b82789fb3d129702ca70b2f6c5aacc099810c9c495c888edeb7386b97052;
 0x1a880af7074d18b3bf20c79de25127bc13284ab01ef02575afef0c8f6a31a86d;
 0x10cba18419a6a332cd5e77f0211c154b20af2924fc20ff3f4c3012bb7ae9311b;
 0x57e62a9a8f89b3ebdc76ba63a9eaca8fa27b7319cae3406756a2849f302f10d;
 0x287c971de91dc0abd44adf5384b4988cb961303bbf65cff5afa0413b44280cee;
 0x21df3388af1687bbb3bca9da0cca908f1e562bc46d4aba4e6f7f7960e306891d;
 0x1be5c887d25bce703e25cc974d0934cd789df8f70b498fd83eff8b560e1682b3;
 0x268da36f76e568fb68117175cea2cd0dd2cb5d42fda5acea48d59c2706a0d5c1;
 0xe17ab091f6eae50c609beaf5510ececc5d8bb74135ebd05bd06460cc26a5ed6;
 0x4d727e728ffa0a67aee535ab074a43091ef62d8cf83d270040f5caa1f62af40;
 0xddbd7bf9c29341581b549762bc022ed33702ac10f1bfd862b15417d7e39ca6e;
 0x2790eb3351621752768162e82989c6c234f5b0d1d3af9b588a29c49c8789654b;
 0x1e457c601a63b73e4471950193d8a570395f3d9ab8b2fd0984b764206142f9e9;
 0x21ae64301dca9625638d6ab2bbe7135ffa90ecd0c43ff91fc4c686fc46e091b0;
 0x379f63c8ce3468d4da293166f494928854be9e3432e09555858534eed8d350b;
 0x2d56420359d0266a744a080809e054ca0e4921a46686ac8c9f58a324c35049;
 0x123158e5965b5d9b1d68b3cd32e10bbeda8d62459e21f4090fc2c5af963515a6;
 0xbe29fc40847a941661d14bbf6cbe0420fbb2b6f52836d4e60c80eb49cad9ec1;
 0x1ac96991dec2bb0557716142015a453c36db9d859cad5f9a233802f24fdf4c1a;
 0x1596443f763dbcc25f4964fc61d23b3e5e12c9fa97f18a9251ca3355bcb0627e;
 0x12e0bcd3654bdfa76b2861d4ec3aeae0f1857d9f17e715aed6d049eae3ba3212;
 0xfc92b4f1bbea82b9ea73d4af9af2a50ceabac7f37154b1904e6c76c7cf964ba;
 0x1f9c0b1610446442d6f2e592a8013f40b14f7c7722236f4f9c7e965233872762;
 0xebd74244ae72675f8cde06157a782f4050d914da38b4c058d159f643dbbf4d3;
 0x2cb7f0ed39e16e9f69a9fafd4ab951c03b0671e97346ee397a839839dccfc6d1;
 0x1a9d6e2ecff022cc5605443ee41bab20ce761d0514ce526690c72bca7352d9bf;
 0x2a115439607f335a5ea83c3bc44a9331d0c13326a9a7ba3087da182d648ec72f;
 0x23f9b6529b5d040d15b8fa7aee3e3410e738b56305cd44f29535c115c5a4c060;
 0x5872c16db0f72a2249ac6ba484bb9c3a3ce97c16d58b68b260eb939f0e6e8a7;
 0x1300bdee08bb7824ca20fb80118075f40219b6151d55b5c52b624a7cdeddf6a7;
 0x19b9b63d2f108e17e63817863a8f6c288d7ad29916d98cb1072e4e7b7d52b376;
 0x15bee1357e3c015b5bda237668522f613d1c88726b5ec4224a20128481b4f7f;
 0x2953736e94bb6b9f1b9707a4f1615e4efe1e1ce4bab218cbea92c785b128ffd1;
 0xb069353ba091618862f806180c0385f851b98d372b45f544ce7266ed6608dfc;
 0x304f74d461ccc13115e4e0bcfb93817e55aeb7eb9306b64e4f588ac97d81f429;
 0x15bbf146ce9bca09e8a33f5e77dfe4f5aad2a164a4617a4cb8ee5415cde913fc;
 0xab4dfe0c2742cde44901031487964ed9b8f4b850405c10ca9ff23859572c8c6;
 0xe32db320a044e3197f45f7649a19675ef5eedfea546dea9251de39f9639779a;
 0xa1756aa1f378ca4b27635a78b6888e66797733a82774896a3078efa516da016;
 0x44c4a33b10f693447fd17177f952ef895e61d328f85efa94254d6a2a25d93ef;
 0x2ed3611b725b8a70be655b537f66f700fe0879d79a496891d37b07b5466c4b8b;
 0x1f9ba4e8bab7ce42c8ecc3d722aa2e0eadfdeb9cfdd347b5d8339ea7120858aa;
 0x1b233043052e8c288f7ee907a84e518aa38e82ac4502066db74056f865c5d3da;
 0x2431e1cc164bb8d074031ab72bd55b4c902053bfc0f14db0ca2f97b020875954;
 0x82f934c91f5aac330cd6953a0a7db45a13e322097583319a791f273965801fd;
 0x2b9a0a223e7538b0a34be074315542a3c77245e2ae7cbe999ad6bb930c48997c;
 0xe1cd91edd2cfa2cceb85483b887a9be8164163e75a8a00eb0b589cc70214e7d;
 0x2e1eac0f2bfdfd63c951f61477e3698999774f19854d00f588d324601cebe2f9;
 0xcbfa95f37fb74060c76158e769d6d157345784d8efdb33c23d748115b500b83;
 0x8f05b3be923ed44d65ad49d8a61e9a676d991e3a77513d9980c232dfa4a4f84;
 0x22719e2a070bcd0852bf8e21984d0443e7284925dc0758a325a2dd510c047ef6;
 0x41f596a9ee1cb2bc060f7fcc3a1ab4c7bdbf036119982c0f41f62b2f26830c0;
 0x233fd35de1be520a87628eb06f6b1d4c021be1c2d0dc464a19fcdd0986b10f89;
 0x524b46d1aa87a5e4325e0a423ebc810d31e078aa1b4707eefcb453c61c9c267;
 0x2c34f424c81e5716ce47fcac894b85824227bb954b0f3199cc4486237c515211;
 0xb5f2a4b63387819207effc2b5541fb72dd2025b5457cc97f33010327de4915e;
 0x22207856082ccc54c5b72fe439d2cfd6c17435d2f57af6ceaefac41fe05c659f;
 0x24d57a8bf5da63fe4e24159b7f8950b5cdfb210194caf79f27854048ce2c8171;
 0xafab181fdd5e0583b371d75bd693f98374ad7097bb01a8573919bb23b79396e;
 0x2dba9b108f208772998a52efac7cbd5676c0057194c16c0bf16290d62b1128ee;
 0x26349b66edb8b16f56f881c788f53f83cbb83de0bd592b255aff13e6bce420b3;
 0x25af7ce0e5e10357685e95f92339753ad81a56d28ecc193b235288a3e6f137db;
 0x25b4ce7bd2294390c094d6a55edd68b970eed7aae88b2bff1f7c0187fe35011f;
 0x22c543f10f6c89ec387e53f1908a88e5de9cef28ebdf30b18cb9d54c1e02b631;
 0x236f93e7789c4724fc7908a9f191e1e425e906a919d7a34df668e74882f87a9;
 0x29350b401166ca010e7d27e37d05da99652bdae114eb01659cb497af980c4b52;
 0xeed787d65820d3f6bd31bbab547f75a65edb75d844ebb89ee1260916652363f;
 0x7cc1170f13b46f2036a753f520b3291fdcd0e99bd94297d1906f656f4de6fad;
 0x22b939233b1d7205f49bcf613a3d30b1908786d7f9f5d10c2059435689e8acea;
 0x1451762a0aab81c8aad1dc8bc33e870740f083a5aa85438add650ace60ae5a6;
 0x23506bb5d8727d4461fabf1025d46d1fe32eaa61dec7da57e704fec0892fce89;
 0x2e484c44e838aea0bac06ae3f71bdd092a3709531e1efea97f8bd68907355522;
 0xf4bc7d07ebafd64379e78c50bd2e42baf4a594545cedc2545418da26835b54c;
 0x1f4d3c8f6583e9e5fa76637862faaee851582388725df460e620996d50d8e74e;
 0x93514e0c70711f82660d07be0e4a988fae02abc7b681d9153eb9bcb48fe7389;
 0x1adab0c8e2b3bad346699a2b5f3bc03643ee83ece47228f24a58e0a347e153d8;
 0x1672b1726057d99dd14709ebb474641a378c1b94b8072bac1a22dbef9e80dad2;
 0x1dfd53d4576af2e38f44f53fdcab468cc5d8e2fae0acc4ee30d47b239b479c14;
 0xc6888a10b75b0f3a70a36263a37e17fe6d77d640f6fc3debc7f207753205c60;
 0x1addb933a65be77092b34a7e77d12fe8611a61e00ee6848b85091ecca9d1e508;
 0xd7540dcd268a845c10ae18d1de933cf638ff5425f0afff7935628e299d1791;
 0x140c0e42687e9ead01b2827a5664ca9c26fedde4acd99db1d316939d20b82c0e;
 0x2f0c3a115d4317d191ba89b8d13d1806c20a0f9b24f8c5edc091e2ae56565984;
 0xc4ee778ff7c14553006ed220cf9c81008a0cff670b22b82d8c538a1dc958c61;
 0x1704f2766d46f82c3693f00440ccc3609424ed26c0acc66227c3d7485de74c69;
 0x2f2d19cc3ea5d78ea7a02c1b51d244abf0769c9f8544e40239b66fe9009c3cfa;
 0x1ae03853b75fcaba5053f112e2a8e8dcdd7ee6cb9cfed9c7d6c766a806fc6629;
 0x971aabf795241df51d131d0fa61aa5f3556921b2d6f014e4e41a86ddaf056d5;
 0x1408c316e6014e1a91d4cf6b6e0de73eda624f8380df1c875f5c29f7bfe2f646;
 0x1667f3fe2edbe850248abe42b543093b6c89f1f773ef285341691f39822ef5bd;
 0x13bf7c5d0d2c4376a48b0a03557cdf915b81718409e5c133424c69576500fe37;
 0x7620a6dfb0b6cec3016adf3d3533c24024b95347856b79719bc0ba743a62c2c;
 0x1574c7ef0c43545f36a8ca08bdbdd8b075d2959e2f322b731675de3e1982b4d0;
 0x269e4b5b7a2eb21afd567970a717ceec5bd4184571c254fdc06e03a7ff8378f0].
(* poseidon_bn128_constants.rs:10894-10899 *)
Definition bn_m2 : list (list Z) := [[0x66f6f85d6f68a85ec10345351a23a3aaf07f38af8c952a7bceca70bd2af7ad5;
 0x2b9d4b4110c9ae997782e1509b1d0fdb20a7c02bbd8bea7305462b9f8125b1e8];
 [0xcc57cdbb08507d62bf67a4493cc262fb6c09d557013fff1f573f431221f8ff9;
 0x1274e649a32ed355a31a6ed69724e1adade857e86eb5c3a121bcd147943203c8]].
(* poseidon_bn128_constants_opt.rs:10-81 *)
Definition bn_C2 : list Z := [0x9c46e9ec68e9bd4fe1faaba294cba38a71aa177534cdd1b6c7dc0dbd0abd7a7;
 0xc0356530896eec42a97ed937f3135cfc5142b3ae405b8343c1d83ffa604cb81;
 0x250f5116a417d76aaa422952fcc5b33329f7714fc26d56c0432507fc740a87c4;
 0x264065ad87572e016659626c33c8213f7a373b9b8225a384f458d850bb4a949f;
 0x2bb8e94ad8d8adca6ce909ff94b8750729b294e4400376da39e33fda24bd42af;
 0x19051065d05d861ec813c15291d46a328f6201b21ad5d239d4f85fbb09a5dbae;
 0x245bd0617aa449618f5bd4550aac7b8e08d4d1c017165943cdf4776cdff3434a;
 0x9fb1a1118074ff79d8acbf5b02131e048a1570155e0f2b1c36ad091d491a88f;
 0x234ab504bbae8198972741952f78b7eb018ea192f05e54c1484ab8973ff66d88;
 0x1f66e509b84c355ae3d4c3513a282fd48f9c8c6439f42a7835fbcfe0f2a324c;
 0x1b22f5d69d725e6002cf00dd9ee62d1a5af0efdc4910f54127a920ccc43f91fa;
 0x252b55edead135f852968b7f1c4f490fa659ecd5b47a78a7db91f65a6dfc23f;
 0x1773ae2e1637c92ad0677c2a047fea8eca4b53303f21871f6892a2c0487d7ff1;
 0x2d57b02906cd0ab82a79e76faeef6f87666eac093cf7715645d5ec9f7ac732f5;
 0xa16f3a62824b281e8b2ddb8fc391a498fb061317faffa03696f834596313d93;
 0x1666f525f7f4b6988d2a37834ab747eae0587757b788eb7f1e26b08e36a08591;
 0x5da44f8e0a3b8bb13231f0ca25b50b57f5c82128e1dfec3e541d912ebe17b76;
 0x9a39ba9993303ba191bac8bdb3e0144dbfb5f39624cdd9524dc7861633bc95a;
 0x6c0fb824a19202d30ee6b418c0029e100e85a6d158f9f2a828dfd2ed0920a68;
 0x387d8e056b2b176a9776b4492cb3b418adc660627e52bb3324283bf9522395d;
 0x147a1af82036ef5b28a7a37bea40d6ac3013cf1b62358396bf7156f5c2dc9684;
 0x3038d92060daeaaf1bd0482bd3f0613d88e8dff90a7a0525f9227e4cb7c6f81b;
 0x72940aa1d538a5a39a323f9e5d65616cf6c223339006f9789a97245532908f5;
 0x2d3d604949f4e14c70b8a879aedec49b3a367ba216af048f464ed6f15e2b9023;
 0x225b9e4f35c7549f80774c2b4d18309b2dcf7c7287b982e49746a176641e73c5;
 0x1ea781288fdf13b2190095a2344828e37dfe81c75a09709f0d139bbbf6c70414;
 0x8e96c3e7e8de4432b202405458468b90dc6890d4cee128b3502e5b6cb4aeeeb;
 0x5b43da7c8aa29af6dcaae57d070b49d29ce889a64a4ac183e85d55b366c805f;
 0xbec98a034e3b8af7ba4861f1ad5a48dcef7c996e7a51c7cdde724d8f610e52;
 0x2eb67ccfa29e2b422b9f84a5d0575fc435b30fcae303039480be384ee4ebe72a;
 0x102bbdc21a3f147bf04eedee5d70bd084a7105c631c86ecd2c4e8749a13915ca;
 0x274bc16c88721babfd5bbe8d8562c1bf127ae38915280fbb8e3115cad3582f79;
 0x185cece417549b25283de04511f769101c8850b409d4928ab831611351bd9938;
 0x13c73fb043f7e978bc9cfb55c7faacb4f4c823674abe17737059ac0a32c36007;
 0x24b3a1d83308742b360c9c60595673e201cdd4cef5a4145c933c4e5969481d70;
 0x18b5ae94df9ec97aaa2a8f0f42425bcccdc8266a070f866ef0f48d7a3744398b;
 0x20eb398cb958cc2ccc7cb1fac38501abbe38169b2d8522d9e5f099f2d5905cb4;
 0x1e588dd3ec8b0d252c2c7c0c78a02b22bbbad1f4dcaa2e78a8b8eef2f4e29344;
 0xf8bf3bd6c22ba3b1bf3ab2e3fb40818cd4217ffbaf294ca42331d4e3043a0a6;
 0x388c9fcf30fc2841d648f46bad01dd10bee9dc184d25eabc9f617021109cec3;
 0x2bb7f397c5941ac67befa8b232f15c8853dac263da793555441a90cec83b6454;
 0x17f389b52f9ea7a98874a4a31ef6a7beb43fb17db0e499250bb3f0181c59fb21;
 0x3a2090eacb897a31fb10561d560a9aeec24b7ad14d17b145f20c875a0b28c7c;
 0xc398534f0eb580f1fe4bf64553389e67cca4714399430e09619dcbee17ba099;
 0x7095ac9fda46afa7f181259e3635feffa7f11ee63f3ee777a5cebf4822328c4;
 0x2046f7cf1c8f13ef2b69cbc8bc0d5d809f82568abe2b33d1cd060958b1ced683;
 0x2c274136a5de2849de6e7f92f9097296501acb68d56138fbcb660c4cb0f69107;
 0x1c4d5178acb5c6b6eceef23afc6f16ec7b0383094cb6467e8d0f4507b3cf74c3;
 0x65b1447d0d64ceced116785b92c63a6a7dd9701507dcbe8b909325e28f7b8d3;
 0x2265d7e244881220c81a193d979330409c9bfa333438951340e023e7b72a1961;
 0x15b12b355af7e05637a1c76e67f9cec6fca8a6449b37669f6850502256b30aba;
 0x1a1522fecc6ae028e4d3e3029497b88f35c2b48c687af168ec2582d9075b4387;
 0x22f56e79e81b7496e472a641a053c414bcc53b0a9350e2589240803076f58f26;
 0x202ddb66d0988994e7aabad692ceac4e2324672a17ab8417d1ee278afd17fd0c;
 0x12b0701e8813c5b21a8e30208f8f1158b96cd428ae77bdea72f84510f73edfce;
 0x1e63fd20e706e1407c8838ceb26b84c9fe693fdde0eb1e1a9df7e84e53eeee7e;
 0x20a16c5a86256deffd15af174c39f9d9aa11500676ac7e570088280dd1896259;
 0x1c8f8bf8e153da55ad5aca2eaaee38da563e0435c0f2f37c27558fb9bae0a3eb;
 0xd7732687bb7bf5f3aabcfdcc4fbb67e159c1983213e416c3880124fddf187c9;
 0xcdd04475a86999a2edcbbbf8264b195e108b3b60b6475d835f6ccef9e2f6865;
 0x2fe65586cd4e754b4c63a88c2ed3f9ba0e3bfa43f547b41153560c214fe3cbcd;
 0x503cf963c8273604e659128ec29261f62399815d98c56dbf4f2837c727ad4d9;
 0x1ee48ea27839061b78379936f6d97ca9400b393ef5fdf38ef1475c8742cb334c;
 0x1a423f8d8fc892b22d7cd5bf0197c575c579e83563d04859d73b2c1c5c0413f9;
 0x69a0da50133e9952f00e61778972a7be0e8d8ab76c95616ae465636abb97ec7;
 0x1bf7879dd42f2cbb91c65a0976356f67964c2f94dfbf0e44cf2b9909165d8614;
 0x1b23dccf485822065c8fc0afe610be7164e25056267f6c4a805fffd4547a0b98;
 0x2ebe90d6f6fdca420e0c2e004ce5c5a4409e564c9c4f3671e3011f627bec7c2e;
 0x167cd6930535a816dfebe81d20c376e77687760f3a2fa0da290b2f4d6c6863f7;
 0x8865c10f4a633c54ccc8b68b79df285f19f1210374cc64e3c8a966d4f90264b;
 0x1de902fbc0bf01951ca25abb39d78894721b37e071851b03a72cc6b833b7893b;
 0xe3eca007699dd0f852eb22da642e495f67c988dd5bf0137676b16a31eab4667].
(* poseidon_bn128_constants_opt.rs:2253-2258 *)
Definition bn_M2 : list (list Z) := [[0x66f6f85d6f68a85ec10345351a23a3aaf07f38af8c952a7bceca70bd2af7ad5;
 0xcc57cdbb08507d62bf67a4493cc262fb6c09d557013fff1f573f431221f8ff9];
 [0x2b9d4b4110c9ae997782e1509b1d0fdb20a7c02bbd8bea7305462b9f8125b1e8;
 0x1274e649a32ed355a31a6ed69724e1adade857e86eb5c3a121bcd147943203c8]].
(* poseidon_bn128_constants_opt.rs:4375-4380 *)
Definition bn_P2 : list (list Z) := [[0x66f6f85d6f68a85ec10345351a23a3aaf07f38af8c952a7bceca70bd2af7ad5;
 0x20e3e914631964e394d269ae59f17efee3fecee512cbb163d32cc760be574bd6];
 [0x2b9d4b4110c9ae997782e1509b1d0fdb20a7c02bbd8bea7305462b9f8125b1e8;
 0x10a44ed9dd9ce568563394632833d8633690d329ae737c8c7220a9b197ee3f46]].
(* poseidon_bn128_constants_opt.rs:6496-6663 *)
Definition bn_S2 : list Z := [0x66f6f85d6f68a85ec10345351a23a3aaf07f38af8c952a7bceca70bd2af7ad5;
 0x1fd20dcb58503896fd52998d6a5be6f12ec33b3cbd590c793e45de825ff8cb5f;
 0x8c8295df0ba11861e97f0cdde8f202a7096c1e6452d33d64a11b5be4e0a1efb;
 0x66f6f85d6f68a85ec10345351a23a3aaf07f38af8c952a7bceca70bd2af7ad5;
 0x2458ee6d7c526073d165d2b08b95cf8947e20e05a76bc12b401b996421e89835;
 0x18c235e6e723390aa65baf06ffa557829f78a2fe1fbfb44eef84e938209c92f9;
 0x66f6f85d6f68a85ec10345351a23a3aaf07f38af8c952a7bceca70bd2af7ad5;
 0x1868e106689f8ea2e9c561b4b192899d07b52e58595c393436c37df24976a584;
 0x2d5161804f0ec6445cb8904ad3e8e9ec21153350df4075c9cbe840b7b609ca92;
 0x66f6f85d6f68a85ec10345351a23a3aaf07f38af8c952a7bceca70bd2af7ad5;
 0x3510550ddf6292355c690f03b9b815aab2dc3f4914612da7ecb79ddcf7b0b90;
 0x9a2e7bb3b278a1d5f264a26345ad8365efe0058403d8a52909cf2d5f6ee6170;
 0x66f6f85d6f68a85ec10345351a23a3aaf07f38af8c952a7bceca70bd2af7ad5;
 0x13dd4148c491a166b015a7a4233f4e488ae94a0e6439be66fe149b50b55759c0;
 0x1d2d3b261f5beb3fc010f42ec3825649d90150eee4ce55dc9f86ddf110295550;
 0x66f6f85d6f68a85ec10345351a23a3aaf07f38af8c952a7bceca70bd2af7ad5;
 0x221b4477678dad4e2abcabb47eb5e7a4129190b3855ae4eecd8ba68643ff77e5;
 0x16b76448e9855f165f2043f5f09bedf1830a4998ff45ebc25f1d40e8e8fcd6e4;
 0x66f6f85d6f68a85ec10345351a23a3aaf07f38af8c952a7bceca70bd2af7ad5;
 0x2a10b6a2cbae9578142cf66104b69e448eae6d3bd53ac8602363460e2286c92d;
 0x2db84dba4a9d96cebe94dfb1d59edfa58ccfa871b9c067c522e31949b69f2bec;
 0x66f6f85d6f68a85ec10345351a23a3aaf07f38af8c952a7bceca70bd2af7ad5;
 0x1ca9bbf26402238296ad897ec1a55b4fc273cf20c1f68f03d5c149be890e7b60;
 0x283d37fa5e35d25c83d1b9d34ecb00cd03848ca730ace52f367e0d7b5fde30d6;
 0x66f6f85d6f68a85ec10345351a23a3aaf07f38af8c952a7bceca70bd2af7ad5;
 0x349057941b141ceea5a063a0ff8ab221271e618a174e5d8009ab5f9c791d960;
 0x1af2e1d98c3c09908503883d3b9ed50fe8958eb1e5d6538016c344d40070efc2;
 0x66f6f85d6f68a85ec10345351a23a3aaf07f38af8c952a7bceca70bd2af7ad5;
 0x5b7bddacf4522b0aa3082e2c05448962743d0023bb6402291f592e6c1da4679;
 0x1fceeccf337e8a903cf6a0c21a6445da7ff8c4a0bc78909c7e704131c8a35241;
 0x66f6f85d6f68a85ec10345351a23a3aaf07f38af8c952a7bceca70bd2af7ad5;
 0x2f30a25f4d843e28afdd850f31d1920ee058dfb6d91c322fc960473e917a6768;
 0x1a55160bf49a4936bcc59162617026194574a89e5857751b68f3c08f7c07ce87;
 0x66f6f85d6f68a85ec10345351a23a3aaf07f38af8c952a7bceca70bd2af7ad5;
 0x19c66ee887ab4763b17573b6ad192b7df1af24f54761998b03b342b95709041e;
 0x1a82828b7f87eba7f5f8624b31e1115506ab3e723266777b3789c9104f9c781e;
 0x66f6f85d6f68a85ec10345351a23a3aaf07f38af8c952a7bceca70bd2af7ad5;
 0xf506d3199d96083de9fc4e71b250825e84a242d81ae3a81d99debc7faed3385;
 0x1cac7482d91faef657db9072a97567ff172374d99987a8b24b2c04472aab9f83;
 0x66f6f85d6f68a85ec10345351a23a3aaf07f38af8c952a7bceca70bd2af7ad5;
 0x249b26b1d4e333b23f3192f0e4f52884ee63d489ee153ecc3216939a72848150;
 0x13d1aeb10b225e2a8b97131154407d1bf145972dcd3a0073339dca336180dfb1;
 0x66f6f85d6f68a85ec10345351a23a3aaf07f38af8c952a7bceca70bd2af7ad5;
 0xb90f72b7fcf867eb2e0f9400787d1dd52720cbc14a7095784e4116624d16df3;
 0x25e346edd8dd55142abd2135951398230f0c8d08bc5c365c5a6cd70011a8f39;
 0x66f6f85d6f68a85ec10345351a23a3aaf07f38af8c952a7bceca70bd2af7ad5;
 0x263003b8ed502577c6427b0b4589ef6ceb87b4e21b7c424e587f2630a7b868a2;
 0x2d92ef6b8bdc53dd1b6c5b1c92e5a8248eb9c12255b910ff89c09961ec12ead7;
 0x66f6f85d6f68a85ec10345351a23a3aaf07f38af8c952a7bceca70bd2af7ad5;
 0x2eb36b6d0bfc593a8d6d9459a7af04f0b15bcae4181bbb123543870c11316681;
 0x1e48bb591146f461c1d2f085f3979139e37f4a5c2354952c833b2791f59034e0;
 0x66f6f85d6f68a85ec10345351a23a3aaf07f38af8c952a7bceca70bd2af7ad5;
 0xe759913751418871f0351ee180ca466cf8a03f541079c1b51bb001550d8162a;
 0x1e45e194b16936c5b1f81c72eb0fe8c62e859c4661b14b7e327503cf49eca55b;
 0x66f6f85d6f68a85ec10345351a23a3aaf07f38af8c952a7bceca70bd2af7ad5;
 0x28c8b58c9e4cfb830a51af4529318b6269c4f6ac1867ed1174ce4aefc57fbeb3;
 0x255b293fcb1be27d9e5aafd4cd28c26746fc3520889367eed1355c2c41b93016;
 0x66f6f85d6f68a85ec10345351a23a3aaf07f38af8c952a7bceca70bd2af7ad5;
 0x1db1367a8e37c5597835365bbfa66f6ecf40da775a54c35d5c94da70415544fe;
 0xcdd97951c2f0b885edc683b9db74f08df61286578a69989a9fed7ca34c5b4ce;
 0x66f6f85d6f68a85ec10345351a23a3aaf07f38af8c952a7bceca70bd2af7ad5;
 0xe4d4e42cacb9fa6745c6dd3630ec5a4cca8a912b7ec28576ab3ba29c57306c9;
 0x2141a925c279e4c4e351641744750d4702d90ef2137d1905dada0bae3c7b3af6;
 0x66f6f85d6f68a85ec10345351a23a3aaf07f38af8c952a7bceca70bd2af7ad5;
 0x8f9f9b3abc79ed89c20597cfbfe49021119cc50648ce401dc50cb042a54d167;
 0x6af6c072313d868cd945c9f0eb7d4eadb24c8d4763fa042952b99353df2b236;
 0x66f6f85d6f68a85ec10345351a23a3aaf07f38af8c952a7bceca70bd2af7ad5;
 0x8b43c97bf4a40b4f376d1fa0c5e6e6955cbf9ba301f878ed3eae4ac812b79d1;
 0x11e0e607ac6781ca34a714e6c5b7a4f839852377446520032420e2abe16115a7;
 0x66f6f85d6f68a85ec10345351a23a3aaf07f38af8c952a7bceca70bd2af7ad5;
 0x2dd7f0e1b303f425cb7e6b1c30ca428b3bff751e7b651152eb4de008b2c00da6;
 0x107d7f92d1c6a24068b917120f993ae3ee84349aaadb71eaa4128b349812dda8;
 0x66f6f85d6f68a85ec10345351a23a3aaf07f38af8c952a7bceca70bd2af7ad5;
 0x10ab9e8e4ec9ad5fdb1166c64ed2fc3223c7e16dd982f66dcd820a7861ae1463;
 0x3000d3b3ddb3fb864ccc729984468a7317397713303544a84d7de1d209d25cb1;
 0x66f6f85d6f68a85ec10345351a23a3aaf07f38af8c952a7bceca70bd2af7ad5;
 0x17610359e624e7feb3eede8099a1dc45c4a0c6b2debc2dc8f200fa27a0da6ebd;
 0x2affce5b7a7d8c5aac04f6c2708794cd01a8439b65d74df5982d24ad2a944eb8;
 0x66f6f85d6f68a85ec10345351a23a3aaf07f38af8c952a7bceca70bd2af7ad5;
 0x2d439fbefe8d2b65ed32658bd21fc5604408d5fb69e1f64965e5895ca61c6e09;
 0xb51cc2a1b1c329fd72a286d4938540db3cfc4320de363a3f68a7935cd193ab9;
 0x66f6f85d6f68a85ec10345351a23a3aaf07f38af8c952a7bceca70bd2af7ad5;
 0x1468ea2868d31f7ebafe78af8c24656a3185963272f34c51d5e2695c43bd3247;
 0x29553949324f27f4fa7bd734920e9be7b662a0ec5797fdd4ed3fe19464879b95;
 0x66f6f85d6f68a85ec10345351a23a3aaf07f38af8c952a7bceca70bd2af7ad5;
 0xd9780ee7d395f7c977fd4b86329f6cd720047a7f9d1672d18d2cfb428343afa;
 0x210a098afd451fca3997860e220106c7487f4716831dfff78036de18f17cb31d;
 0x66f6f85d6f68a85ec10345351a23a3aaf07f38af8c952a7bceca70bd2af7ad5;
 0x1cedcfe2751b360e73d6ef5af88cd5b75a2b2d97c571889a0dda87a0dd90ad81;
 0x22719f26e16723c1bd45a619e91836c340a304f3648672f90de2b047880aee03;
 0x66f6f85d6f68a85ec10345351a23a3aaf07f38af8c952a7bceca70bd2af7ad5;
 0xae0cec959c4c7859f670f19c7490f8eef6ad66346e04613c1350597be000be2;
 0x177560de731482bdb7316c238bc38f20a16cd03edda2e0393b1c515ec64b0727;
 0x66f6f85d6f68a85ec10345351a23a3aaf07f38af8c952a7bceca70bd2af7ad5;
 0x1f19a267da0b8fc2b4850a4f458add5514edf0aad6f7a7f175aef0b98e816a40;
 0x1da77cdeff9cf822b54509031ea2888f6f398051ae1870afd3770e7724c09f31;
 0x66f6f85d6f68a85ec10345351a23a3aaf07f38af8c952a7bceca70bd2af7ad5;
 0x2d1e17aaaa96743665a869970255c267ba338cfd43ec9b33ecaa764f48f17a8;
 0xc376a8ff1da39dec980316ea26ef66fae5c86877a8f82266c14670024329d12;
 0x66f6f85d6f68a85ec10345351a23a3aaf07f38af8c952a7bceca70bd2af7ad5;
 0xbb856048ef43a77b39560adeb3c7a9a783db5cad8e3f422495a69c56680a79;
 0x1d81808a3c73be1bb2c99b6403f3ac4a532c88d29ad652cbb20061656006c19a;
 0x66f6f85d6f68a85ec10345351a23a3aaf07f38af8c952a7bceca70bd2af7ad5;
 0x15e52ae83a9db363d24cc5900df8ff0b81e445d4409a0e2aafd3223c354add62;
 0x2aa2fc03cb5f72e237f7d88ef66f765a159be533354ffb88751abb8885203ad4;
 0x66f6f85d6f68a85ec10345351a23a3aaf07f38af8c952a7bceca70bd2af7ad5;
 0x10afedad881a1da7dace5c69546d0890bc35f41992b1062a7c7789b03ac932c0;
 0x1d18193701979ad24042446e947dfedfad22a6e7d4f6bde875fe2d8c882c858a;
 0x66f6f85d6f68a85ec10345351a23a3aaf07f38af8c952a7bceca70bd2af7ad5;
 0x2f0b8457690e4d9770beb0300a09fc7001cd417061e826bc450dd96d7b24f36;
 0xdc31897d61d70e16870e0b02b9776bc53b8b9848be3062f8da18ff9d981effb;
 0x66f6f85d6f68a85ec10345351a23a3aaf07f38af8c952a7bceca70bd2af7ad5;
 0x203c94bb7694f9cdad3a14a7603e3cb69c141200fd46bdc9ebb0d5d73663525;
 0x2b778a231f21f8a6cdaa3c84372933e610eb985dcc81af9926fe8b09f1afc81f;
 0x66f6f85d6f68a85ec10345351a23a3aaf07f38af8c952a7bceca70bd2af7ad5;
 0x2c8a0376c766055e6a9d5272a2466a28faa7e359db111e84d98b2138c8c9d5d2;
 0x2ffda33f5b85a4fde16ba590ae0cd49fce4ad01e095f94f49138fe44aaa8c778;
 0x66f6f85d6f68a85ec10345351a23a3aaf07f38af8c952a7bceca70bd2af7ad5;
 0x318af53cfd822ec2a7f4d40614f72fc6cb27f44067fb58d15789bbe15444844;
 0xd24997465c5b23d4e7436a4ecef2f91ce9f8910b6fa8a4a3ba6f884bd7206cc;
 0x66f6f85d6f68a85ec10345351a23a3aaf07f38af8c952a7bceca70bd2af7ad5;
 0x1ea39e4d9edebf65d648e42880b396a6becfa66b3c5e47ff9a33577a3d2a658;
 0x15e4e016c94a026fd9ede9bdcf11268f7735cf5ebdbdd4a092fda1ee8b50f2ff;
 0x66f6f85d6f68a85ec10345351a23a3aaf07f38af8c952a7bceca70bd2af7ad5;
 0x2ef185c4b1cdb7072a82fd43fe4bb145c4dbd04973fb3ef76e757b00392eac9d;
 0x15cedc8a4ef6f7017d1dd3d92255beb54f1d7d1e3bb0204cb07ab81c71435902;
 0x66f6f85d6f68a85ec10345351a23a3aaf07f38af8c952a7bceca70bd2af7ad5;
 0xdbf148ee8983db0c117b111270f1c2c8219565733684494eaf5ce0645e5749a;
 0x2842f44ddc05dbd5b319b1efe6b3eabced380b99ffc42dfb08805ea2b4c48aab;
 0x66f6f85d6f68a85ec10345351a23a3aaf07f38af8c952a7bceca70bd2af7ad5;
 0x1aa07e7ffa4a036f1b7efb2e124e75028426fdf5f1e4fb8bb62e1ebf3298af2c;
 0x1e5a2abded8c7022a8ba97ea683b605d09f017fd43e92296656561eb96d25d32;
 0x66f6f85d6f68a85ec10345351a23a3aaf07f38af8c952a7bceca70bd2af7ad5;
 0xacf3ab02c018573bc3d36b0cb73de6df11e8cc1dea223e98a2a0cfbc028d2af;
 0x1bab48ad2c31dcec5fcc6df1f02dc4164f949202122673b06105f7ff1beabb29;
 0x66f6f85d6f68a85ec10345351a23a3aaf07f38af8c952a7bceca70bd2af7ad5;
 0x1a36af3ad1c61cddc06a2a4c6967dc004b589a4a8b358ded11a38cce6a7f31c;
 0x125e0e822514cf49536fa643a66e1d2fa6788cb5b4805c9cd3cb69a584e0d8d2;
 0x66f6f85d6f68a85ec10345351a23a3aaf07f38af8c952a7bceca70bd2af7ad5;
 0x85be8486ecb3dbf71d63940d8d689f9b142434a14d5d4f8c93d7d0f17bfcbd3;
 0x275651360d88063b2feead8bc71ae9c002d5db9822ab63b058f11e0d506b17e3;
 0x66f6f85d6f68a85ec10345351a23a3aaf07f38af8c952a7bceca70bd2af7ad5;
 0xf7eb245596d9ac5ecc21446ed94c80289db1e1f9f620c18f7815b247b228a6f;
 0x221862a04a00f406bc67f7677ab459c9d887c8bb88091513f0fc2fb103ad549c;
 0x66f6f85d6f68a85ec10345351a23a3aaf07f38af8c952a7bceca70bd2af7ad5;
 0x1bd575603b7085afcf0a588a5fadf8705cda7eb1d4ab7e70137dbd47fc26e3a2;
 0x146d1d176245ff772db8575d986a82e931079de61e67184c4158a6f62db446f1;
 0x66f6f85d6f68a85ec10345351a23a3aaf07f38af8c952a7bceca70bd2af7ad5;
 0x2202ec1e7fd85c4749393664f024d578d392d59cb12a42e2ef4fa728da4cd3a;
 0x1c0e72693a0e12bff0ab3e12a1203c846b5dfdb9dd5ba26a7309c6970371421;
 0x66f6f85d6f68a85ec10345351a23a3aaf07f38af8c952a7bceca70bd2af7ad5;
 0x2b3d8733bb4872b6cbb0bd83378163ab14a585dbf5ad9758c07948de056071e0;
 0x185d12aa30aed1a0575b9d3dcee6332f4fa34643a429cfdd8de0fdc87a29640e;
 0x66f6f85d6f68a85ec10345351a23a3aaf07f38af8c952a7bceca70bd2af7ad5;
 0x1b394227301f28bee29bd3dfc35dfcc8e1c60ec6dd944dd33593a9a77675f641;
 0x15b1cfd522bdc418f6c08a3deb114a4ff48854b4a496537d41eb3a325f2265e7;
 0x66f6f85d6f68a85ec10345351a23a3aaf07f38af8c952a7bceca70bd2af7ad5;
 0xbca3aef46833e8a30a9db0a16b59abc619800d2da15da01dd5a0713ff4cbbb8;
 0x529062596e51b8ca2c2f8c7cf4adff0853150015e2e6b4ce7af212500f5e6ca;
 0x66f6f85d6f68a85ec10345351a23a3aaf07f38af8c952a7bceca70bd2af7ad5;
 0x2fda517f4261325a7366a45da1e847cd150d022be2982eb6105dcfc31fdef60;
 0x1fec5a09cea4d25e5b7ff9d2fbab64d264db993e8d8629b7154a1539d12dd1cf;
 0x66f6f85d6f68a85ec10345351a23a3aaf07f38af8c952a7bceca70bd2af7ad5;
 0x2d87776eef5dfabbe5605094751af17b831717fa3f8e01943b74d1a9a42eb1bb;
 0xd257a437910f3995aebd0afb9be584967afa4188c4684958f68c39f9f01ff19;
 0x66f6f85d6f68a85ec10345351a23a3aaf07f38af8c952a7bceca70bd2af7ad5;
 0x98f0aa06092ed2cbcbac004f90799e6e1c32fc24a9f0b6066f8d7289716aee4;
 0xcc57cdbb08507d62bf67a4493cc262fb6c09d557013fff1f573f431221f8ff9].
(* poseidon_bn128_constants.rs:134-328 *)
Definition bn_c3 : list Z := [0xee9a592ba9a9518d05986d656f40c2114c4993c11bb29938d21d47304cd8e6e;
 0xf1445235f2148c5986587169fc1bcd887b08d4d00868df5696fff40956e864;
 0x8dff3487e8ac99e1f29a058d0fa80b930c728730b7ab36ce879f3890ecf73f5;
 0x2f27be690fdaee46c3ce28f7532b13c856c35342c84bda6e20966310fadc01d0;
 0x2b2ae1acf68b7b8d2416bebf3d4f6234b763fe04b8043ee48b8327bebca16cf2;
 0x319d062072bef7ecca5eac06f97d4d55952c175ab6b03eae64b44c7dbf11cfa;
 0x28813dcaebaeaa828a376df87af4a63bc8b7bf27ad49c6298ef7b387bf28526d;
 0x2727673b2ccbc903f181bf38e1c1d40d2033865200c352bc150928adddf9cb78;
 0x234ec45ca27727c2e74abd2b2a1494cd6efbd43e340587d6b8fb9e31e65cc632;
 0x15b52534031ae18f7f862cb2cf7cf760ab10a8150a337b1ccd99ff6e8797d428;
 0xdc8fad6d9e4b35f5ed9a3d186b79ce38e0e8a8d1b58b132d701d4eecf68d1f6;
 0x1bcd95ffc211fbca600f705fad3fb567ea4eb378f62e1fec97805518a47e4d9c;
 0x10520b0ab721cadfe9eff81b016fc34dc76da36c2578937817cb978d069de559;
 0x1f6d48149b8e7f7d9b257d8ed5fbbaf42932498075fed0ace88a9eb81f5627f6;
 0x1d9655f652309014d29e00ef35a2089bfff8dc1c816f0dc9ca34bdb5460c8705;
 0x4df5a56ff95bcafb051f7b1cd43a99ba731ff67e47032058fe3d4185697cc7d;
 0x672d995f8fff640151b3d290cedaf148690a10a8c8424a7f6ec282b6e4be828;
 0x99952b414884454b21200d7ffafdd5f0c9a9dcc06f2708e9fc1d8209b5c75b9;
 0x52cba2255dfd00c7c483143ba8d469448e43586a9b4cd9183fd0e843a6b9fa6;
 0xb8badee690adb8eb0bd74712b7999af82de55707251ad7716077cb93c464ddc;
 0x119b1590f13307af5a1ee651020c07c749c15d60683a8050b963d0a8e4b2bdd1;
 0x3150b7cd6d5d17b2529d36be0f67b832c4acfc884ef4ee5ce15be0bfb4a8d09;
 0x2cc6182c5e14546e3cf1951f173912355374efb83d80898abe69cb317c9ea565;
 0x5032551e6378c450cfe129a404b3764218cadedac14e2b92d2cd73111bf0f9;
 0x233237e3289baa34bb147e972ebcb9516469c399fcc069fb88f9da2cc28276b5;
 0x5c8f4f4ebd4a6e3c980d31674bfbe6323037f21b34ae5a4e80c2d4c24d60280;
 0xa7b1db13042d396ba05d818a319f25252bcf35ef3aeed91ee1f09b2590fc65b;
 0x2a73b71f9b210cf5b14296572c9d32dbf156e2b086ff47dc5df542365a404ec0;
 0x1ac9b0417abcc9a1935107e9ffc91dc3ec18f2c4dbe7f22976a760bb5c50c460;
 0x12c0339ae08374823fabb076707ef479269f3e4d6cb104349015ee046dc93fc0;
 0xb7475b102a165ad7f5b18db4e1e704f52900aa3253baac68246682e56e9a28e;
 0x37c2849e191ca3edb1c5e49f6e8b8917c843e379366f2ea32ab3aa88d7f8448;
 0x5a6811f8556f014e92674661e217e9bd5206c5c93a07dc145fdb176a716346f;
 0x29a795e7d98028946e947b75d54e9f044076e87a7b2883b47b675ef5f38bd66e;
 0x20439a0c84b322eb45a3857afc18f5826e8c7382c8a1585c507be199981fd22f;
 0x2e0ba8d94d9ecf4a94ec2050c7371ff1bb50f27799a84b6d4a2a6f2a0982c887;
 0x143fd115ce08fb27ca38eb7cce822b4517822cd2109048d2e6d0ddcca17d71c8;
 0xc64cbecb1c734b857968dbbdcf813cdf8611659323dbcbfc84323623be9caf1;
 0x28a305847c683f646fca925c163ff5ae74f348d62c2b670f1426cef9403da53;
 0x2e4ef510ff0b6fda5fa940ab4c4380f26a6bcb64d89427b824d6755b5db9e30c;
 0x81c95bc43384e663d79270c956ce3b8925b4f6d033b078b96384f50579400e;
 0x2ed5f0c91cbd9749187e2fade687e05ee2491b349c039a0bba8a9f4023a0bb38;
 0x30509991f88da3504bbf374ed5aae2f03448a22c76234c8c990f01f33a735206;
 0x1c3f20fd55409a53221b7c4d49a356b9f0a1119fb2067b41a7529094424ec6ad;
 0x10b4e7f3ab5df003049514459b6e18eec46bb2213e8e131e170887b47ddcb96c;
 0x2a1982979c3ff7f43ddd543d891c2abddd80f804c077d775039aa3502e43adef;
 0x1c74ee64f15e1db6feddbead56d6d55dba431ebc396c9af95cad0f1315bd5c91;
 0x7533ec850ba7f98eab9303cace01b4b9e4f2e8b82708cfa9c2fe45a0ae146a0;
 0x21576b438e500449a151e4eeaf17b154285c68f42d42c1808a11abf3764c0750;
 0x2f17c0559b8fe79608ad5ca193d62f10bce8384c815f0906743d6930836d4a9e;
 0x2d477e3862d07708a79e8aae946170bc9775a4201318474ae665b0b1b7e2730e;
 0x162f5243967064c390e095577984f291afba2266c38f5abcd89be0f5b2747eab;
 0x2b4cb233ede9ba48264ecd2c8ae50d1ad7a8596a87f29f8a7777a70092393311;
 0x2c8fbcb2dd8573dc1dbaf8f4622854776db2eece6d85c4cf4254e7c35e03b07a;
 0x1d6f347725e4816af2ff453f0cd56b199e1b61e9f601e9ade5e88db870949da9;
 0x204b0c397f4ebe71ebc2d8b3df5b913df9e6ac02b68d31324cd49af5c4565529;
 0xc4cb9dc3c4fd8174f1149b3c63c3c2f9ecb827cd7dc25534ff8fb75bc79c502;
 0x174ad61a1448c899a25416474f4930301e5c49475279e0639a616ddc45bc7b54;
 0x1a96177bcf4d8d89f759df4ec2f3cde2eaaa28c177cc0fa13a9816d49a38d2ef;
 0x66d04b24331d71cd0ef8054bc60c4ff05202c126a233c1a8242ace360b8a30a;
 0x2a4c4fc6ec0b0cf52195782871c6dd3b381cc65f72e02ad527037a62aa1bd804;
 0x13ab2d136ccf37d447e9f2e14a7cedc95e727f8446f6d9d7e55afc01219fd649;
 0x1121552fca26061619d24d843dc82769c1b04fcec26f55194c2e3e869acc6a9a;
 0xef653322b13d6c889bc81715c37d77a6cd267d595c4a8909a5546c7c97cff1;
 0xe25483e45a665208b261d8ba74051e6400c776d652595d9845aca35d8a397d3;
 0x29f536dcb9dd7682245264659e15d88e395ac3d4dde92d8c46448db979eeba89;
 0x2a56ef9f2c53febadfda33575dbdbd885a124e2780bbea170e456baace0fa5be;
 0x1c8361c78eb5cf5decfb7a2d17b5c409f2ae2999a46762e8ee416240a8cb9af1;
 0x151aff5f38b20a0fc0473089aaf0206b83e8e68a764507bfd3d0ab4be74319c5;
 0x4c6187e41ed881dc1b239c88f7f9d43a9f52fc8c8b6cdd1e76e47615b51f100;
 0x13b37bd80f4d27fb10d84331f6fb6d534b81c61ed15776449e801b7ddc9c2967;
 0x1a5c536273c2d9df578bfbd32c17b7a2ce3664c2a52032c9321ceb1c4e8a8e4;
 0x2ab3561834ca73835ad05f5d7acb950b4a9a2c666b9726da832239065b7c3b02;
 0x1d4d8ec291e720db200fe6d686c0d613acaf6af4e95d3bf69f7ed516a597b646;
 0x41294d2cc484d228f5784fe7919fd2bb925351240a04b711514c9c80b65af1d;
 0x154ac98e01708c611c4fa715991f004898f57939d126e392042971dd90e81fc6;
 0xb339d8acca7d4f83eedd84093aef51050b3684c88f8b0b04524563bc6ea4da4;
 0x955e49e6610c94254a4f84cfbab344598f0e71eaff4a7dd81ed95b50839c82e;
 0x6746a6156eba54426b9e22206f15abca9a6f41e6f535c6f3525401ea0654626;
 0xf18f5a0ecd1423c496f3820c549c27838e5790e2bd0a196ac917c7ff32077fb;
 0x4f6eeca1751f7308ac59eff5beb261e4bb563583ede7bc92a738223d6f76e13;
 0x2b56973364c4c4f5c1a3ec4da3cdce038811eb116fb3e45bc1768d26fc0b3758;
 0x123769dd49d5b054dcd76b89804b1bcb8e1392b385716a5d83feb65d437f29ef;
 0x2147b424fc48c80a88ee52b91169aacea989f6446471150994257b2fb01c63e9;
 0xfdc1f58548b85701a6c5505ea332a29647e6f34ad4243c2ea54ad897cebe54d;
 0x12373a8251fea004df68abcf0f7786d4bceff28c5dbbe0c3944f685cc0a0b1f2;
 0x21e4f4ea5f35f85bad7ea52ff742c9e8a642756b6af44203dd8a1f35c1a90035;
 0x16243916d69d2ca3dfb4722224d4c462b57366492f45e90d8a81934f1bc3b147;
 0x1efbe46dd7a578b4f66f9adbc88b4378abc21566e1a0453ca13a4159cac04ac2;
 0x7ea5e8537cf5dd08886020e23a7f387d468d5525be66f853b672cc96a88969a;
 0x5a8c4f9968b8aa3b7b478a30f9a5b63650f19a75e7ce11ca9fe16c0b76c00bc;
 0x20f057712cc21654fbfe59bd345e8dac3f7818c701b9c7882d9d57b72a32e83f;
 0x4a12ededa9dfd689672f8c67fee31636dcd8e88d01d49019bd90b33eb33db69;
 0x27e88d8c15f37dcee44f1e5425a51decbd136ce5091a6767e49ec9544ccd101a;
 0x2feed17b84285ed9b8a5c8c5e95a41f66e096619a7703223176c41ee433de4d1;
 0x1ed7cc76edf45c7c404241420f729cf394e5942911312a0d6972b8bd53aff2b8;
 0x15742e99b9bfa323157ff8c586f5660eac6783476144cdcadf2874be45466b1a;
 0x1aac285387f65e82c895fc6887ddf40577107454c6ec0317284f033f27d0c785;
 0x25851c3c845d4790f9ddadbdb6057357832e2e7a49775f71ec75a96554d67c77;
 0x15a5821565cc2ec2ce78457db197edf353b7ebba2c5523370ddccc3d9f146a67;
 0x2411d57a4813b9980efa7e31a1db5966dcf64f36044277502f15485f28c71727;
 0x2e6f8d6520cd4713e335b8c0b6d2e647e9a98e12f4cd2558828b5ef6cb4c9b;
 0x2ff7bc8f4380cde997da00b616b0fcd1af8f0e91e2fe1ed7398834609e0315d2;
 0xb9831b948525595ee02724471bcd182e9521f6b7bb68f1e93be4febb0d3cbe;
 0xa2f53768b8ebf6a86913b0e57c04e011ca408648a4743a87d77adbf0c9c3512;
 0x248156142fd0373a479f91ff239e960f599ff7e94be69b7f2a290305e1198d;
 0x171d5620b87bfb1328cf8c02ab3f0c9a397196aa6a542c2350eb512a2b2bcda9;
 0x170a4f55536f7dc970087c7c10d6fad760c952172dd54dd99d1045e4ec34a808;
 0x29aba33f799fe66c2ef3134aea04336ecc37e38c1cd211ba482eca17e2dbfae1;
 0x1e9bc179a4fdd758fdd1bb1945088d47e70d114a03f6a0e8b5ba650369e64973;
 0x1dd269799b660fad58f7f4892dfb0b5afeaad869a9c4b44f9c9e1c43bdaf8f09;
 0x22cdbc8b70117ad1401181d02e15459e7ccd426fe869c7c95d1dd2cb0f24af38;
 0xef042e454771c533a9f57a55c503fcefd3150f52ed94a7cd5ba93b9c7dacefd;
 0x11609e06ad6c8fe2f287f3036037e8851318e8b08a0359a03b304ffca62e8284;
 0x1166d9e554616dba9e753eea427c17b7fecd58c076dfe42708b08f5b783aa9af;
 0x2de52989431a859593413026354413db177fbf4cd2ac0b56f855a888357ee466;
 0x3006eb4ffc7a85819a6da492f3a8ac1df51aee5b17b8e89d74bf01cf5f71e9ad;
 0x2af41fbb61ba8a80fdcf6fff9e3f6f422993fe8f0a4639f962344c8225145086;
 0x119e684de476155fe5a6b41a8ebc85db8718ab27889e85e781b214bace4827c3;
 0x1835b786e2e8925e188bea59ae363537b51248c23828f047cff784b97b3fd800;
 0x28201a34c594dfa34d794996c6433a20d152bac2a7905c926c40e285ab32eeb6;
 0x83efd7a27d1751094e80fefaf78b000864c82eb571187724a761f88c22cc4e7;
 0xb6f88a3577199526158e61ceea27be811c16df7774dd8519e079564f61fd13b;
 0xec868e6d15e51d9644f66e1d6471a94589511ca00d29e1014390e6ee4254f5b;
 0x2af33e3f866771271ac0c9b3ed2e1142ecd3e74b939cd40d00d937ab84c98591;
 0xb520211f904b5e7d09b5d961c6ace7734568c547dd6858b364ce5e47951f178;
 0xb2d722d0919a1aad8db58f10062a92ea0c56ac4270e822cca228620188a1d40;
 0x1f790d4d7f8cf094d980ceb37c2453e957b54a9991ca38bbe0061d1ed6e562d4;
 0x171eb95dfbf7d1eaea97cd385f780150885c16235a2a6a8da92ceb01e504233;
 0xc2d0e3b5fd57549329bf6885da66b9b790b40defd2c8650762305381b168873;
 0x1162fb28689c27154e5a8228b4e72b377cbcafa589e283c35d3803054407a18d;
 0x2f1459b65dee441b64ad386a91e8310f282c5a92a89e19921623ef8249711bc0;
 0x1e6ff3216b688c3d996d74367d5cd4c1bc489d46754eb712c243f70d1b53cfbb;
 0x1ca8be73832b8d0681487d27d157802d741a6f36cdc2a0576881f9326478875;
 0x1f7735706ffe9fc586f976d5bdf223dc680286080b10cea00b9b5de315f9650e;
 0x2522b60f4ea3307640a0c2dce041fba921ac10a3d5f096ef4745ca838285f019;
 0x23f0bee001b1029d5255075ddc957f833418cad4f52b6c3f8ce16c235572575b;
 0x2bc1ae8b8ddbb81fcaac2d44555ed5685d142633e9df905f66d9401093082d59;
 0xf9406b8296564a37304507b8dba3ed162371273a07b1fc98011fcd6ad72205f;
 0x2360a8eb0cc7defa67b72998de90714e17e75b174a52ee4acb126c8cd995f0a8;
 0x15871a5cddead976804c803cbaef255eb4815a5e96df8b006dcbbc2767f88948;
 0x193a56766998ee9e0a8652dd2f3b1da0362f4f54f72379544f957ccdeefb420f;
 0x2a394a43934f86982f9be56ff4fab1703b2e63c8ad334834e4309805e777ae0f;
 0x1859954cfeb8695f3e8b635dcb345192892cd11223443ba7b4166e8876c0d142;
 0x4e1181763050e58013444dbcb99f1902b11bc25d90bbdca408d3819f4fed32b;
 0xfdb253dee83869d40c335ea64de8c5bb10eb82db08b5e8b1f5e5552bfd05f23;
 0x58cbe8a9a5027bdaa4efb623adead6275f08686f1c08984a9d7c5bae9b4f1c0;
 0x1382edce9971e186497eadb1aeb1f52b23b4b83bef023ab0d15228b4cceca59a;
 0x3464990f045c6ee0819ca51fd11b0be7f61b8eb99f14b77e1e6634601d9e8b5;
 0x23f7bfc8720dc296fff33b41f98ff83c6fcab4605db2eb5aaa5bc137aeb70a58;
 0xa59a158e3eec2117e6e94e7f0e9decf18c3ffd5e1531a9219636158bbaf62f2;
 0x6ec54c80381c052b58bf23b312ffd3ce2c4eba065420af8f4c23ed0075fd07b;
 0x118872dc832e0eb5476b56648e867ec8b09340f7a7bcb1b4962f0ff9ed1f9d01;
 0x13d69fa127d834165ad5c7cba7ad59ed52e0b0f0e42d7fea95e1906b520921b1;
 0x169a177f63ea681270b1c6877a73d21bde143942fb71dc55fd8a49f19f10c77b;
 0x4ef51591c6ead97ef42f287adce40d93abeb032b922f66ffb7e9a5a7450544d;
 0x256e175a1dc079390ecd7ca703fb2e3b19ec61805d4f03ced5f45ee6dd0f69ec;
 0x30102d28636abd5fe5f2af412ff6004f75cc360d3205dd2da002813d3e2ceeb2;
 0x10998e42dfcd3bbf1c0714bc73eb1bf40443a3fa99bef4a31fd31be182fcc792;
 0x193edd8e9fcf3d7625fa7d24b598a1d89f3362eaf4d582efecad76f879e36860;
 0x18168afd34f2d915d0368ce80b7b3347d1c7a561ce611425f2664d7aa51f0b5d;
 0x29383c01ebd3b6ab0c017656ebe658b6a328ec77bc33626e29e2e95b33ea6111;
 0x10646d2f2603de39a1f4ae5e7771a64a702db6e86fb76ab600bf573f9010c711;
 0xbeb5e07d1b27145f575f1395a55bf132f90c25b40da7b3864d0242dcb1117fb;
 0x16d685252078c133dc0d3ecad62b5c8830f95bb2e54b59abdffbf018d96fa336;
 0xa6abd1d833938f33c74154e0404b4b40a555bbbec21ddfafd672dd62047f01a;
 0x1a679f5d36eb7b5c8ea12a4c2dedc8feb12dffeec450317270a6f19b34cf1860;
 0x980fb233bd456c23974d50e0ebfde4726a423eada4e8f6ffbc7592e3f1b93d6;
 0x161b42232e61b84cbf1810af93a38fc0cece3d5628c9282003ebacb5c312c72b;
 0xada10a90c7f0520950f7d47a60d5e6a493f09787f1564e5d09203db47de1a0b;
 0x1a730d372310ba82320345a29ac4238ed3f07a8a2b4e121bb50ddb9af407f451;
 0x2c8120f268ef054f817064c369dda7ea908377feaba5c4dffbda10ef58e8c556;
 0x1c7c8824f758753fa57c00789c684217b930e95313bcb73e6e7b8649a4968f70;
 0x2cd9ed31f5f8691c8e39e4077a74faa0f400ad8b491eb3f7b47b27fa3fd1cf77;
 0x23ff4f9d46813457cf60d92f57618399a5e022ac321ca550854ae23918a22eea;
 0x9945a5d147a4f66ceece6405dddd9d0af5a2c5103529407dff1ea58f180426d;
 0x188d9c528025d4c2b67660c6b771b90f7c7da6eaa29d3f268a6dd223ec6fc630;
 0x3050e37996596b7f81f68311431d8734dba7d926d3633595e0c0d8ddf4f0f47f;
 0x15af1169396830a91600ca8102c35c426ceae5461e3f95d89d829518d30afd78;
 0x1da6d09885432ea9a06d9f37f873d985dae933e351466b2904284da3320d8acc;
 0x2796ea90d269af29f5f8acf33921124e4e4fad3dbe658945e546ee411ddaa9cb;
 0x202d7dd1da0f6b4b0325c8b3307742f01e15612ec8e9304a7cb0319e01d32d60;
 0x96d6790d05bb759156a952ba263d672a2d7f9c788f4c831a29dace4c0f8be5f;
 0x54efa1f65b0fce283808965275d877b438da23ce5b13e1963798cb1447d25a4;
 0x1b162f83d917e93edb3308c29802deb9d8aa690113b2e14864ccf6e18e4165f1;
 0x21e5241e12564dd6fd9f1cdd2a0de39eedfefc1466cc568ec5ceb745a0506edc;
 0x1cfb5662e8cf5ac9226a80ee17b36abecb73ab5f87e161927b4349e10e4bdf08;
 0xf21177e302a771bbae6d8d1ecb373b62c99af346220ac0129c53f666eb24100;
 0x1671522374606992affb0dd7f71b12bec4236aede6290546bcef7e1f515c2320;
 0xfa3ec5b9488259c2eb4cf24501bfad9be2ec9e42c5cc8ccd419d2a692cad870;
 0x193c0e04e0bd298357cb266c1506080ed36edce85c648cc085e8c57b1ab54bba;
 0x102adf8ef74735a27e9128306dcbc3c99f6f7291cd406578ce14ea2adaba68f8;
 0xfe0af7858e49859e2a54d6f1ad945b1316aa24bfbdd23ae40a6d0cb70c3eab1;
 0x216f6717bbc7dedb08536a2220843f4e2da5f1daa9ebdefde8a5ea7344798d22;
 0x1da55cc900f0d21f4a3e694391918a1b3c23b2ac773c6b3ef88e2e4228325161].
(* poseidon_bn128_constants.rs:10904-10916 *)
Definition bn_m3 : list (list Z) := [[0x109b7f411ba0e4c9b2b70caf5c36a7b194be7c11ad24378bfedb68592ba8118b;
 0x16ed41e13bb9c0c66ae119424fddbcbc9314dc9fdbdeea55d6c64543dc4903e0;
 0x2b90bba00fca0589f617e7dcbfe82e0df706ab640ceb247b791a93b74e36736d];
 [0x2969f27eed31a480b9c36c764379dbca2cc8fdd1415c3dded62940bcde0bd771;
 0x2e2419f9ec02ec394c9871c832963dc1b89d743c8c7b964029b2311687b1fe23;
 0x101071f0032379b697315876690f053d148d4e109f5fb065c8aacc55a0f89bfa];
 [0x143021ec686a3f330d5f9e654638065ce6cd79e28c5b3753326244ee65a1b1a7;
 0x176cc029695ad02582a70eff08a6fd99d057e12e58e7d7b6b16cdfabc8ee2911;
 0x19a3fc0a56702bf417ba7fee3802593fa644470307043f7773279cd71d25d5e0]].
(* poseidon_bn128_constants_opt.rs:84-164 *)
Definition bn_C3 : list Z := [0xee9a592ba9a9518d05986d656f40c2114c4993c11bb29938d21d47304cd8e6e;
 0xf1445235f2148c5986587169fc1bcd887b08d4d00868df5696fff40956e864;
 0x8dff3487e8ac99e1f29a058d0fa80b930c728730b7ab36ce879f3890ecf73f5;
 0x84d520e4e5bb469e1f9075cb7c490efa59565eedae2d00ca8ef88ceea2b0197;
 0x2d15d982d99577fa33da56722416fd734b3e667a2f9f15d8eb3e767ae0fd811e;
 0xed2538844aba161cf1578a43cf0364e91601f6536a5996d0efbe65632c41b6d;
 0x2600c27d879fbca186e739e6363c71cf804c877d829b735dcc3e3af02955e60a;
 0x28f8bd44a583cbaa475bd15396430e7ccb99a5517440dfd970058558282bf2c5;
 0x9cd7d4c380dc5488781aad012e7eaef1ed314d7f697a5572d030c55df153221;
 0x11bb6ee1291aabb206120ecaace460d24b6713febe82234951e2bee7d0f855f5;
 0x2d74e8fa0637d9853310f3c0e3fae1d06f171580f5b8fd05349cadeecfceb230;
 0x2735e4ec9d39bdffac9bef31bacba338b1a09559a511a18be4b4d316ed889033;
 0xf03c1e9e0895db1a5da6312faa78e971106c33f826e08dcf617e24213132dfd;
 0x17094cd297bf827caf92920205b719c18741090b8f777811848a7e9ead6778c4;
 0xdb8f419c21f92461fc2b3219465798348df90d4178042c81ba7d4b4d559e2b8;
 0x243443613f64ffa417427ed5933fcfbc66809db60b9ca1724a22709ceceeece2;
 0x22af49fbfd5d7e9fcd256c25c07d3dd8ecbbae6deecd03aa04bb191fada75411;
 0x14fbd37fa8ad6e4e0c78a20d93c7230c4677f797b4327323f7f7c097c19420e0;
 0x15a9298bbb882534d4b2c9fbc6e4ef4189420c4eb3f3e1ea22faa7e18b5ae625;
 0x2f7de75f23ddaaa5221323ebceb2f2ac83eef92e854e75434c2f1d90562232bc;
 0x36a4432a868283b78a315e84c4ae5aeca216f2ff9e9b2e623584f7479cd5c27;
 0x2180d7786a8cf810e277218ab14a11e5e39f3c962f11e860ae1c5682c797de5c;
 0xa268ef870736eebd0cb55be640d73ee3778990484cc03ce53572377eefff8e4;
 0x1eefefe11c0be4664f2999031f15994829e982e8c90e09069df9bae16809a5b2;
 0x27e87f033bd1e0a89ca596e8cb77fe3a4b8fb93d9a1129946571a3c3cf244c52;
 0x1498a3e6599fe243321f57d6c5435889979c4f9d2a3e184d21451809178ee39;
 0x27c0a41f4cb9fe67e9dd4d7ce33707f74d5d6bcc235bef108dea1bbebde507aa;
 0x1f75230908b141b46637238b120fc770f4f4ae825d5004c16a7c91fe1dae280f;
 0x25f99a9198e923167bba831b15fffd2d7b97b3a089808d4eb1f0a085bee21656;
 0x101bc318e9ea5920d0f6acdc2bb526593d3d56ec8ed14c67622974228ba900c6;
 0x1a175607067d517397c1334ecb019754ebc0c852a3cf091ec1ccc43207a83c76;
 0xf02f0e6d25f9ea3deb245f3e8c381ee6b2eb380ba4af5c1c4d89770155df37b;
 0x151d757acc8237af08d8a6677203ec9692565de456ae789ff358b3163b393bc9;
 0x256cd9577cea143049e0a1fe0068dd20084980ee5b757890a79d13a3a624fad4;
 0x513abaff6195ea48833b13da50e0884476682c3fbdd195497b8ae86e1937c61;
 0x1d9570dc70a205f36f610251ee6e2e8039246e84e4ac448386d19dbac4e4a655;
 0x18f1a5194755b8c5d5d7f1bf8aaa6f56effb012dd784cf5e044eec50b29fc9d4;
 0x266b53b615ef73ac866512c091e4a4f2fa4bb0af966ef420d88163238eebbca8;
 0x2d63234c9207438aa42b8de27644c02268304dfeb8c89a1a3f4fd6e8344ae0f7;
 0x2ab30fbe51ee49bc7b3adde219a6f0b5fbb976205ef8df7e0021daee6f55c693;
 0x1aee6d4b3ebe9366dcb9cce48969d4df1dc42abcd528b270068d9207fa6a45c9;
 0x1891aeab71e34b895a79452e5864ae1d11f57646c60bb34aa211d123f6095219;
 0x24492b5f95c0b0876437e94b4101c69118e16b2657771bd3a7caab01c818aa4b;
 0x1752161b3350f7e1b3b2c8663a0d642964628213d66c10ab2fddf71bcfde68f;
 0xab676935722e2f67cfb84938e614c6c2f445b8d148de54368cfb8f90a00f3a7;
 0xb0f72472b9a2f5f45bc730117ed9ae5683fc2e6e227e3d4fe0da1f7aa348189;
 0x16aa6f9273acd5631c201d1a52fc4f8acaf2b2152c3ae6df13a78a513edcd369;
 0x2f60b987e63614eb13c324c1d8716eb0bf62d9b155d23281a45c08d52435cd60;
 0x18d24ae01dde92fd7606bb7884554e9df1cb89b042f508fd9db76b7cc1b21212;
 0x4fc3bf76fe31e2f8d776373130df79d18c3185fdf1593960715d4724cffa586;
 0xd18f6b53fc69546cfdd670b41732bdf6dee9e06b21260c6b5d26270468dbf82;
 0xba4231a918f13acec11fbafa17c5223f1f70b4cdb045036fa5d7045bd10e24;
 0x7b458b2e00cd7c6100985301663e7ec33c826da0635ff1ebedd0dd86120b4c8;
 0x1c35c2d96db90f4f6058e76f15a0c8286bba24e2ed40b16cec39e9fd7baa5799;
 0x1d12bea3d8c32a5d766568f03dd1ecdb0a4f589abbef96945e0dde688e292050;
 0xd953e20022003270525f9a73526e9889c995bb62fdea94313db405a61300286;
 0x29f053ec388795d786a40bec4c875047f06ff0b610b4040a760e33506d2671e1;
 0x4188e33735f46b14a4952a98463bc12e264d5f446e0c3f64b9679caaae44fc2;
 0x149ec28846d4f438a84f1d0529431bb9e996a408b7e97eb3bf1735cdbe96f68f;
 0xde20fae0af5188bca24b5f63630bad47aeafd98e651922d148cce1c5fdddee8;
 0x12d650e8f790b1253ea94350e722ad2f7d836c234b8660edf449fba6984c6709;
 0x22ab53aa39f34ad30ea96717ba7446aafdadbc1a8abe28d78340dfc4babb8f6c;
 0x26503e8d4849bdf5450dabea7907bc3de0de109871dd776904a129db9149166c;
 0x1d5e7a0e2965dffa00f5454f5003c5c8ec34b23d897e7fc4c8064035b0d33850;
 0xee3d8daa098bee012d96b7ec48448c6bc9a6aefa544615b9cb3c7bbd07104cb;
 0x1bf282082a04979955d30754cd4d9056fa9ef7a7175703d91dc232b5f98ead00;
 0x7ae1344abfc6c2ce3e951bc316bee49971645f16b693733a0272173ee9ad461;
 0x217e3a247827c376ec21b131d511d7dbdc98a36b7a47d97a5c8e89762ee80488;
 0x215ffe584b0eb067a003d438e2fbe28babe1e50efc2894117509b616addc30ee;
 0x1e770fc8ecbfdc8692dcedc597c4ca0fbec19b84e33da57412a92d1d3ce3ec20;
 0x2f6243cda919bf4c9f1e3a8a6d66a05742914fc19338b3c0e50e828f69ff6d1f;
 0x246efddc3117ecd39595d0046f44ab303a195d0e9cc89345d3c03ff87a11b693;
 0x53e8d9b3ea5b8ed4fe006f139cbc4e0168b1c89a918dfbe602bc62cec6adf1;
 0x1b894a2f45cb96647d910f6a710d38b7eb4f261beefff135aec04c1abe59427b;
 0xaeb1554e266693d8212652479107d5fdc077abf88651f5a42553d54ec242cc0;
 0x16a735f6f7209d24e6888680d1781c7f04ba7d71bd4b7d0e11faf9da8d9ca28e;
 0x487b8b7fab5fc8fd7c13b4df0543cd260e4bcbb615b19374ff549dcf073d41b;
 0x1e75b9d2c2006307124bea26b0772493cfb5d512068c3ad677fdf51c92388793;
 0x5120e3d0e28003c253b46d5ff77d272ae46fa1e239d1c6c961dcb02da3b388f;
 0xda5feb534576492b822e8763240119ac0900a053b171823f890f5fd55d78372;
 0x2e211b39a023031a22acc1a1f5f3bb6d8c2666a6379d9d2c40cc8f78b7bd9abe].
(* poseidon_bn128_constants_opt.rs:2263-2275 *)
Definition bn_M3 : list (list Z) := [[0x109b7f411ba0e4c9b2b70caf5c36a7b194be7c11ad24378bfedb68592ba8118b;
 0x2969f27eed31a480b9c36c764379dbca2cc8fdd1415c3dded62940bcde0bd771;
 0x143021ec686a3f330d5f9e654638065ce6cd79e28c5b3753326244ee65a1b1a7];
 [0x16ed41e13bb9c0c66ae119424fddbcbc9314dc9fdbdeea55d6c64543dc4903e0;
 0x2e2419f9ec02ec394c9871c832963dc1b89d743c8c7b964029b2311687b1fe23;
 0x176cc029695ad02582a70eff08a6fd99d057e12e58e7d7b6b16cdfabc8ee2911];
 [0x2b90bba00fca0589f617e7dcbfe82e0df706ab640ceb247b791a93b74e36736d;
 0x101071f0032379b697315876690f053d148d4e109f5fb065c8aacc55a0f89bfa;
 0x19a3fc0a56702bf417ba7fee3802593fa644470307043f7773279cd71d25d5e0]].
(* poseidon_bn128_constants_opt.rs:4385-4397 *)
Definition bn_P3 : list (list Z) := [[0x109b7f411ba0e4c9b2b70caf5c36a7b194be7c11ad24378bfedb68592ba8118b;
 0x1e6f20a11d1e31e43f83dcedddb9a0236203f5f24ae72c925a8a79a66831f51d;
 0x1bd8c528472e57bdc722a141f8785694484f426725403ae24084e3027e782467];
 [0x16ed41e13bb9c0c66ae119424fddbcbc9314dc9fdbdeea55d6c64543dc4903e0;
 0x2d51ba82c8073c6d6bacf1ad5e56655b7143625b0a9e9c3190527a1a5f05079a;
 0x1b07d6d51e6f7e97e0ab10fc2e51ea83ce0611f940ff0731b5f927fe8d6a77c9];
 [0x2b90bba00fca0589f617e7dcbfe82e0df706ab640ceb247b791a93b74e36736d;
 0x11e12a40d262ae88e8376f62d19edf43093cdef1ccf34d985a3e53f0bc5765a0;
 0x221c170e4d02a2479c6f3e47b5ff55781574f980d89038308a3ef37cce8463bd]].
(* poseidon_bn128_constants_opt.rs:6666-6950 *)
Definition bn_S3 : list Z := [0x109b7f411ba0e4c9b2b70caf5c36a7b194be7c11ad24378bfedb68592ba8118b;
 0x3f0815ab463f1b76ee25a9b8768b3231a89752f427f4f063ab718e707576b31;
 0x15648bf46f60d82954c7e33029b3617357012a3d3b1d34c8e008859f1dbfb317;
 0x127e00c2253de07818ca7f2eafdd7564d05ea850cf61f1daa0cfefbf7fbfba85;
 0x66365afd18a41ef9382fc0b1d265cb4d3ce470a8cbbb878f7d48051630747bd;
 0x109b7f411ba0e4c9b2b70caf5c36a7b194be7c11ad24378bfedb68592ba8118b;
 0x219d14f823513140dc69a96f7fe7e086f4fa24c84e57dcf2b099715c4404aae7;
 0x3a30bfbbf2cb86d4a6a63a8050d91f9f14f4d33696d37ebaefa9ac2302132d5;
 0x2121bbcdeaa33a35b0270fb7d5c9f94edad5a84d74b06e3385104b0b41935bcc;
 0x196b544fbeb0a792cfbb82c289e579b7cd5580c2e338a389d053ef8b3d10e70e;
 0x109b7f411ba0e4c9b2b70caf5c36a7b194be7c11ad24378bfedb68592ba8118b;
 0x2809c3a1547c0cee89c1db270ef479c26973ec73edb4bd4e7d907ea0202f560f;
 0x11c34446b083ef92ca157585a02b8b342a4c67175b31f4b5d40d4e96dfc5c8f1;
 0x253ea0b33a8bf3b2367c030e3289cbe0f6242ad7709d90b86d9d8026e2e39925;
 0x30467dc1930f6afe90c89d4007ad29fc4f5a19c006d1030438c16df85637bd5f;
 0x109b7f411ba0e4c9b2b70caf5c36a7b194be7c11ad24378bfedb68592ba8118b;
 0x2f9d4b55495f7e377e20e6f5a3a88af7aa6a536458b38bbe13c8ebfbbba54f44;
 0x1d9e9d5c736e3151f11d36d499e7e093d8ee2353be18aad54cfd03ff0feac4b8;
 0x124b617b43e598f9ebf622f7823a3de7d1bfedb87e097c315f343de301e54841;
 0x198e7cfc66ae45774055cf073bedc945a5f9c5b19cae08d789cc5748ffe199b2;
 0x109b7f411ba0e4c9b2b70caf5c36a7b194be7c11ad24378bfedb68592ba8118b;
 0x2eac25b3498dfadffd124ab3aad57789eb945ba57443099c5bb6c27ed977fe24;
 0x1ee02c175cdfe1871b378305c1bb9c904e8af1d4454ed3550b3c6ab5f4f90126;
 0x616f8c34c607266b29ea8f9d2dfa47ff6fbb1d9745c48609fa98301d0f679d5;
 0x181d68b0a188504958b9f19cbbdb972a853e51ed385e4883a43a42832803370b;
 0x109b7f411ba0e4c9b2b70caf5c36a7b194be7c11ad24378bfedb68592ba8118b;
 0x2d5397ce863464a25d6b7f5b015d579181d1ce2f24cbabf6059e9327f5ba7004;
 0x15bf817491b94d71e8912940cc0b80277713e7d32da2b6591724d8dbd4bc2618;
 0x2a7cbd11460b177ab76feab28b69485ac8cc687740bc910994a3827d29c08714;
 0xf7cd5ffa4661730ab56e447fae5cc1763cb462da80a85614c237b290de9d502;
 0x109b7f411ba0e4c9b2b70caf5c36a7b194be7c11ad24378bfedb68592ba8118b;
 0xe0766004b4c4176eb13273508eb6575f768137d86d305be644ce04531008100;
 0x625fa7145813481f6d148be6b9c8bb7b54ee3c1afac00104e1f763000b9924c;
 0x7c5472508b459916ee0f5461aad2e0b19cd9c7b184f515b65136318ce2c6a5;
 0x567375470d189b693ac77ab3fb7557231d53073951d43c54685879cb7a89fcb;
 0x109b7f411ba0e4c9b2b70caf5c36a7b194be7c11ad24378bfedb68592ba8118b;
 0x1d0406bcbec83f8d5165f56c063e42108ad21f51ea4bfc71601174ba5c7b8bcc;
 0xc02b18eef22332d280a8aa1f86405f3375f06342f8696ee7c73b46c63272cb7;
 0x17c1fc174cd9a6ebeaa7add2f801a664823509ad4fd1b15aad053a55ad6da4cf;
 0x5f843c23024eb1dab7ebbc86709a021aaa6caf433f7ed258a08638e9584b32d;
 0x109b7f411ba0e4c9b2b70caf5c36a7b194be7c11ad24378bfedb68592ba8118b;
 0x22df2420697ca28b5cc51c53165e002727b45ccd90a55c87589f792f0ad8cb37;
 0x2f1438303a7b49d473400aaedf0f48009fd3af804b76be86417588efc4d7302a;
 0x2323d5fcf2da8965c6b2b7b4fbf9a24bbaa7f4dccd35d5ca6155c5463093b23b;
 0x26c85b9dfbbe48fe83b753a5e7336b9f40f7b961e9c54f94e37700073d4d26e;
 0x109b7f411ba0e4c9b2b70caf5c36a7b194be7c11ad24378bfedb68592ba8118b;
 0x31511000251ec86feb38b5ab4e335f070b271df4c20979528e41d65384c318f;
 0x18e588324a9bbaacb42fa69e5d90a0c0e27cd16b941e34a60ff5df9a26c03af1;
 0x2642b5d8e16b953b070635775c8d3c9498357d6ad9bef2e7d99f03c10ea1f95f;
 0x21fc313ba11c60e8e84ff60db906a0f031189b0b48335c4221f909aef836c133;
 0x109b7f411ba0e4c9b2b70caf5c36a7b194be7c11ad24378bfedb68592ba8118b;
 0x2d3562e3d4b42bc6890b698cc6ab89f7311298bcbac6e4e9f2f4d93d06dae151;
 0xa74ef541d360e842e3e0b6ff7e5c7c77934a5f67616f01c189d886dfd2e0808;
 0x140564b53e0a812ac3983d6e3b433afa43f434087d9e754967c2c9b1b02caf8a;
 0x14709e32d98ae4cd18b400181e71ab9759c436c8e83fa6993adb6f2db6bba9d0;
 0x109b7f411ba0e4c9b2b70caf5c36a7b194be7c11ad24378bfedb68592ba8118b;
 0x734b2366c59e394423f179e1266dd392372db4f2dba651f4a619a4b52bdc010;
 0x11fb2d705c94b08d5ad3e3c5fb6629abe963ed92913642c7d02d7e71088fd2d4;
 0x27d03abf5c1f290e5d715eba19371050ef6eb7f78fd84be834e4cc3618059484;
 0x13ed9e9e6b452df27fb3353cfc2cd63ebe817f212a39c6a8bb9b441ac1395861;
 0x109b7f411ba0e4c9b2b70caf5c36a7b194be7c11ad24378bfedb68592ba8118b;
 0x1319c51cf37aaa10246cdaaa04a12e88795de4452604263a7c5b79ab99cbd23c;
 0xbca25588d187b7f9dad839f2c8cb526a4cf444eebbd0e715b6cea019ac3f2;
 0x1d837ea0341c5964181226874b923cd01a069b493f02f7a3c01be23cf51d593f;
 0x1b41ce9ed3634cbd42c427ce4c5c83774149e2a6dbd25f24012090db7de4e7f9;
 0x109b7f411ba0e4c9b2b70caf5c36a7b194be7c11ad24378bfedb68592ba8118b;
 0x671f0e3b674ae7cddc790ecc4e946f4bca74b98b78a127c7b56bd6673f1ce1f;
 0x19fc073797a39b272e40cd30615f55fefeb682c1ac14143071d0449a5426e4e;
 0x17bee47d262a497fd1f7c5c6d5a7c70fa4209480bf5d97311c5096619e9fd13;
 0x2073cff92d3141b480763539cff2978a4c7944721cc937ba00cc8527274471e3;
 0x109b7f411ba0e4c9b2b70caf5c36a7b194be7c11ad24378bfedb68592ba8118b;
 0x3bd7b3e2c1885877f43182a55a91d48f9c58d152e730fe2c7aa46b1fa663baa;
 0x226ebc9a538b5bbaff128edfb9bbf5fa0ceb100719a14c8dfed9ffbbbad9b6b7;
 0xd395f0b08b9fede0373a06e1552c0e634a49572af1d830dc6e394e8a5d3b21a;
 0x28242439b524540a30d49b68e19e31ba5284bd3bcf1e0f2f41f77d5331f99ffa;
 0x109b7f411ba0e4c9b2b70caf5c36a7b194be7c11ad24378bfedb68592ba8118b;
 0x370d6fa19eaac142d2de034801ab85e0b457e129e91f929754b48c6154d4df6;
 0x9a16f573b3280f390762abf269579eaa37939bc0c753feb0a2b2e0bcbde1659;
 0x2228e360fb5b162b496ac443f98127ee3c0021a690b71b268d99981368231d97;
 0x7e42c2ca633d2c49fabf83991476d209431e34d8032b6a1b97675f3c567f944;
 0x109b7f411ba0e4c9b2b70caf5c36a7b194be7c11ad24378bfedb68592ba8118b;
 0x2ce12d7269663770c3cab85a6215a32eed35fda1d8e9d753a50fe96097724a9f;
 0x3d7427704c61e2009eeb9b1b45a0125084bc4daf70973a7ba0b2231815b15de;
 0x10f8abf0764185861c1267fcf4b4b33ca096fb4ddc4626732d86921e553e69c6;
 0x17ccaf6f26f7267a025d7cb456e3aeb251a1a620aaf6568a5c95644c7c5914cc;
 0x109b7f411ba0e4c9b2b70caf5c36a7b194be7c11ad24378bfedb68592ba8118b;
 0x63bb306b96310051385c3ce00ca820ad0e3651a6e55754d59de6df28cea4d51;
 0x1f761ee5553c5e86f2c304a18095ab7403242e0b65e608bc920cf993a4169974;
 0xdc5f00bbfd7c1d9a23c0e666859ba6564bcde8761b45717cd6bdfc09de4e8f2;
 0x6de511520e277b7df07c3536381c13eb44cf790a230abc391089760bfc40ef2;
 0x109b7f411ba0e4c9b2b70caf5c36a7b194be7c11ad24378bfedb68592ba8118b;
 0x2a134348c8660efcf9ef54863e70528a1fd4481b50a1fe21f24a8c06e10cca03;
 0xaeb5023bbb9a64c4bd80089e99edf8ed5f6f1ffb63a7dbba1b33520bcfce37b;
 0x141a6d0810366ae225ecb5f0bfdc9995406c5960ab26155836fc51fb7cb933d1;
 0x9d2ea05ef54dadbbe776f404dca6626cc0b2539990bc0b8bfe87497f1e2c5b7;
 0x109b7f411ba0e4c9b2b70caf5c36a7b194be7c11ad24378bfedb68592ba8118b;
 0x1e56d244a8e41be5d104d5f8ef70891d22d4a5432441bfe8ff1a16e91719cdde;
 0x1d4f020c57c4f14aec908b2f99b5c4fd5e09447fa85c2fd68ba4d5c5f50c7b49;
 0x763911a3a92a4f0e09f4e14cd03398d8d82a1e09db80fb0ee1e833764c18fd3;
 0x12857275be2fe6b9ba2ec68f9061643f1fc5d9a2c5e47e55684366e54b302946;
 0x109b7f411ba0e4c9b2b70caf5c36a7b194be7c11ad24378bfedb68592ba8118b;
 0x2ed11ccd2e2e2376655ffe9a96c4b81adc0a60353c5d83d4d0ebf50d1bbf87c0;
 0x3e31de8958e82645b320d5e3e966ef4726d5b1c2cfbb4acd288a21543c6d594;
 0x11e880dfefdbd08858ae890046533d58da28a608d7e905366ec2ca4a36e71963;
 0x1835b275deaed2d00704a9c3cc21ab7a44a34662978d53c190dc25e969a507b2;
 0x109b7f411ba0e4c9b2b70caf5c36a7b194be7c11ad24378bfedb68592ba8118b;
 0x68b75315e25ed4ace5a4a9480e1d82ce5d44f76f1324240419f372ff8d3c3f5;
 0x1b7ef7d04aec73d62b052d2ad12b92a4268fccd795c839d698ad3b22823274d1;
 0x28c0c848022a90606f6193ff5501b57216b670727f4b8efcc240d30bbaa9f03f;
 0x13bda49296cbcc51686a7bfb1c39f3f254370985a16660efd6e5d82d4f068e1b;
 0x109b7f411ba0e4c9b2b70caf5c36a7b194be7c11ad24378bfedb68592ba8118b;
 0x2e7987ea8204389d11eb10b34265e378a945729f86c3e0e2fd38490d3a594141;
 0x826d4a2324ad3aa4b2b45c10a190fedef702aeffda3226ce5415fffd03935c8;
 0x2dbeee85eaeaa9fa3675ef541c9df7bb964a85435c3b59685f93b434036ded;
 0x227ee7a945edaee6919418ecb3279b11e6fa44f5f5c5abfb966a4be599cb86c7;
 0x109b7f411ba0e4c9b2b70caf5c36a7b194be7c11ad24378bfedb68592ba8118b;
 0x1d0a6d1a9519877805ac90d696faf2a5ffadc23986de8c698d541471c7244220;
 0x2208aaba508ae816da4f333b7854fbbcd10eea1db284ec3e9f4de02b25f6e9d4;
 0x28a58901035b2c99e36a7d29b587a215c9e59268e2f8e01a175720971ccf04ec;
 0x112f6d8d42b0a0d123a07865ca1376df317a2a14ffc0191226f38a8adfd6238;
 0x109b7f411ba0e4c9b2b70caf5c36a7b194be7c11ad24378bfedb68592ba8118b;
 0x8c6eb19c016d1833174dda182d266d5c727f97fb4d01f1daf906b6d3c6e2308;
 0x1359d2d6c8b5a116d0b38b95f9c642df75b1be9a48c8698ecfea9103f73f1879;
 0x10c5052ec67ab9b6a467c1cc1878d91aaa07aacf7725f8a5ed42b699c4af3ca7;
 0x583c4d292d54f3cdb708803e6338fc6afdb188d5d4e9f060193823684c96c75;
 0x109b7f411ba0e4c9b2b70caf5c36a7b194be7c11ad24378bfedb68592ba8118b;
 0x2d94a1c55be382151a4054c5b96322e7bcd1fe2b3e076e16ee2c18bfc06f57b4;
 0x15e3402fdde8770fb997369579c1b1703ef77c671927ead80dbc64dd2211c3ec;
 0x185be98784817f22f7b21e6b867d5a71b5000bef8bb902eb302677e20a727be3;
 0x18db4321c721c03666ed8927c89890aa8aad1b00c054547b5ca14cd94de467b6;
 0x109b7f411ba0e4c9b2b70caf5c36a7b194be7c11ad24378bfedb68592ba8118b;
 0x2a852b6247f5d61f0c390b3f3d799188528849bcd2cd0aff4eb2134a039b5126;
 0x2510aeed51b7f506e65fb9a18ee0124aa5276f6de1cd771b165930204da58f22;
 0xf2074a32eb8260fb5bd3a236f03a47b47b7fb54dcad1d7977d6486513bab5f2;
 0x2f4c69297866bd45a8270e19941926cec3531c9e12c4c2c84971404bfa044090;
 0x109b7f411ba0e4c9b2b70caf5c36a7b194be7c11ad24378bfedb68592ba8118b;
 0x154668727d2dbadf05d083a65093c0d0e92df5fd5f3fd75e9b792c562a37473f;
 0x1e6ffc5d6a1ff5dc4fd77fc5ab5c8c4e8d3e2e375bcd1194a91e5b0f7b13cadf;
 0x2cf1a1d7c44309109d75acbc9395cb8398c8b2d428538571fafa389da29990c6;
 0x140fb39a89f26f6d87cf76cd5ce8da47aa5d8a023e24cf016ecf64cf793c9880;
 0x109b7f411ba0e4c9b2b70caf5c36a7b194be7c11ad24378bfedb68592ba8118b;
 0x1289d13d58a17b5bf0712b201fb3cddfce2c16dac159990b8298a93a8589f9e8;
 0xf45cf974d2c9edb5781e8d3d207adc8370cf56bc5218749610920fe98b2db2e;
 0x11909c81a16518046b79edfd24f5abcc585a81d1b333568b8687a1c9eceb44d4;
 0x2990b23c81882f7709f3b891a0e3da4d6917672f2d5a1041fd7bbd6792330d16;
 0x109b7f411ba0e4c9b2b70caf5c36a7b194be7c11ad24378bfedb68592ba8118b;
 0x609551b14716ca3cd5560e0821e7285e0a083ea9a16dc102ecf461e4aef7277;
 0xc8c1abdfab99d03fd93dced2467354b6175de1755f4f93dc0880eaa08d03f77;
 0x138bd098c4923b9fbd02f33f8bec6c730db3fed298ec09f78a7a55d08f2e0b10;
 0x2e61e4bc021630114673f0f77161ae55dcd0b45ce07d9ae3f21bb5a3190f14c0;
 0x109b7f411ba0e4c9b2b70caf5c36a7b194be7c11ad24378bfedb68592ba8118b;
 0x124860913e3df8f65a9c4060ce3297c626abd1c22401c905ddb408260d8e910;
 0x13807f89c394a133ec104804d955cbe125f24c5701d98286c6ac8b7ed052ec8;
 0x2e88d1a6938f0788132aa9eeaec08d2f59aa444050c8f4c4e85578abb0fc2fe5;
 0x1f3d24f17cfc6050a0cbf64e1f1787e2257be3c3ba607c2e8fcc1f26abf3104;
 0x109b7f411ba0e4c9b2b70caf5c36a7b194be7c11ad24378bfedb68592ba8118b;
 0x1fe1cb0e2ae169f83b9d4f133d41fb5b3fe6c76a82a916bfd9b62f82f0f8d0bf;
 0xef79351229409cd353329221229827e19946f3d8d1c48bf5e3377f9177071f3;
 0x18fb2e46fc1b90fe1c4893ef77a9d111507551883127860e89088608373beda9;
 0x77afe2579f42ec14c32ef0761e23a3cc0ad6263a68c5cb61916bd57120d1868;
 0x109b7f411ba0e4c9b2b70caf5c36a7b194be7c11ad24378bfedb68592ba8118b;
 0x79769092daa5a752642c04ccf8a6ea54e2ac9836fdd65d248b186f1490b7b99;
 0x1d8bf229c19968f0254eb6e09c5c8bfd67eb9734606b676b663c76cf76bab4a5;
 0x2a33b7d855e7fe55f93556e49e4b37737664f14236f17256428f29f6ec1bddad;
 0x25b0331d7e2b15af4ec161c86e84ba6ab2056077e7aa7536340dc3187ccca8b2;
 0x109b7f411ba0e4c9b2b70caf5c36a7b194be7c11ad24378bfedb68592ba8118b;
 0x762098f5fe26598ccbf45e4810211b0ffcf8ccbb92c16e2f4f13f22342474e2;
 0xe234d720d70b2886d0da4c007b1bda42362e144185c70716dece2b6172c2514;
 0x1d82bedccd2bc8a06e3742e720b7fec2ea72182f11c0c60d135c811152aa4b60;
 0x480064d4b3eb0ada5e9a3e7d05930b7c3397fd6b94d481314bd1c690a17c979;
 0x109b7f411ba0e4c9b2b70caf5c36a7b194be7c11ad24378bfedb68592ba8118b;
 0x10a892763b3cca9ef7593fbb1140edc8c8e4580568560cf41867f7464fb0c11a;
 0xb5ec64548ea841ac921f9b2553680785978b315667ae4714dde4cd7f4de8b91;
 0x10554aca4e348e5949761bd7131dfaebd78010edd030e1a9ce3c65c9db931d46;
 0x15be66f38d86b0998b93655462b1f475b9be9de306e150d4ac648fab3db0cff6;
 0x109b7f411ba0e4c9b2b70caf5c36a7b194be7c11ad24378bfedb68592ba8118b;
 0x176ad3600fd3491182d182957ffad01bf6c26e9d4ab0c23caaf308e427d3dbe8;
 0x2b6f355b3dbf65f09335001d705ac125e3beb20f4fc11bd3ce82b5cf0af2e6f2;
 0x1c85c06a6d5d40d81d7c89edefb32d1a8448c51288fa296b6de9ff788c77451;
 0x20e1e876c4746a0cbd9a51d76b2e25f82361c389e43f7d1f51a70aaac2460d79;
 0x109b7f411ba0e4c9b2b70caf5c36a7b194be7c11ad24378bfedb68592ba8118b;
 0x20e46219f684186d2a024b637bc35a29ee3b08ce737701392d987dda9217fa08;
 0x2ea7279db9f2aa0f654e987907277c24480766367a8bd90e28be0f2ed6091367;
 0x136be2a7f18924c9362096d472bc75ca0969dc077c9171b1641be95091780f74;
 0x1ca2033501baa3f73067c4300fb0f51119ed5736fbc8f1f6c924baf0df5a0e9e;
 0x109b7f411ba0e4c9b2b70caf5c36a7b194be7c11ad24378bfedb68592ba8118b;
 0xa82f199c2505277ecaa75e495f34e3525824f7a4a9d9fa1da810832b48a50c7;
 0xecf10485307b4bae92fefb0d7f7782a9f37a2722e7ed9eb7925a2dea580b7d5;
 0x7b642138dfd6a6dd12aa22f08a8296d68615c8478f13af16aebbbb339a3936b;
 0x1d9dda43a25593ffd2256d34921fb86ed70e760ba76d61e9cbc3b6dd0f1a2150;
 0x109b7f411ba0e4c9b2b70caf5c36a7b194be7c11ad24378bfedb68592ba8118b;
 0x2f1af228520c8b751dc91136c91c6bccd5367eb08213d392958ce2fd3d7d2fce;
 0x1fecfe833ad540455c6d6c1ab3de4abae61ada625a1a2b6b18551a45a6cde123;
 0x18fc8e608c735b2b3b0d7583460227575657ff8a77abe637bdd3ad28e4a23c88;
 0x28f740bc1182e9706ebf03cb3f53aba8a43ce0b618783a5586388a7547faa815;
 0x109b7f411ba0e4c9b2b70caf5c36a7b194be7c11ad24378bfedb68592ba8118b;
 0x47998cc0af5a26b94ad301e4b998d29e960a4851cfd13822bed35b7146966a4;
 0x1b5f1525b31db911dda43e415e1b9a3a9725c7b52e880ee130a14a692b777b70;
 0x275a83fa5d19b4535f65e965a90eac9bf770ae9bd1d7b1af945fa57ed5c8de6e;
 0x2e8789257ed2cbcccb430568e49bc9dc2a563359808c9897ce3e40a6f6a27aa8;
 0x109b7f411ba0e4c9b2b70caf5c36a7b194be7c11ad24378bfedb68592ba8118b;
 0x927f46cfe80feefeb2721a4c09e9d17f60c34500dcd6e41e2925a39c8e2c7c1;
 0x1f868ae04832a5dbc37619bfe6ab6a97fd8fb2cfbc1ecf9e0e484bbfe7698101;
 0x9d7a11e27d2f53109b73f745b2defed65d94ba80f308fb19ce6d56c9b45eff4;
 0x282d857cfe8da3b5104e1c2823fb7c5b9a7b25924fda5995b0c351aa2b879dff;
 0x109b7f411ba0e4c9b2b70caf5c36a7b194be7c11ad24378bfedb68592ba8118b;
 0x20ba8a9fcec815b13f349ff830ae663b27576e135c0744f6987fb0f6ff49c217;
 0x11b6afc91e32f1ca4589fba12e657d226d57b471ddd2ab1b66a8ae4dcbfb136e;
 0x2e666402ac9cc588316e335c7d93db344788eec2c72ddf3f908141736cebc3be;
 0x17522e0e9e64f795a202a110e283faad7057aec5c9ed9a1a74920f2794f18595;
 0x109b7f411ba0e4c9b2b70caf5c36a7b194be7c11ad24378bfedb68592ba8118b;
 0x2d2ed17f7a1f3ee9e20b470cad4cc7319e6adb40e2ff24b7878cb9878edbd3b9;
 0x1a81efb19d7e1edaa96fa276e89e85d08f75e54a8136f4d73c937da16c7bf9f4;
 0x27ff57c1ca847e57210a7b44e52e5630f299c5f451c7a0d515a16bb3bd33e237;
 0x1c1a8e22230abcd13c5be96031bfa167840d117b3c6a5a0a11be26a7f5fb1a94;
 0x109b7f411ba0e4c9b2b70caf5c36a7b194be7c11ad24378bfedb68592ba8118b;
 0x2a1c3f15d4927c843627a9cd533e4250d81e7774d2c32b59d5836f9c19a5657;
 0x2ddbb7239eb904d81c52499b37cb4be1af0373a10ac112e185acb219899357e4;
 0xdff198393085a754e0d6faec54be81d8edf8bc25edadab48a86fad6da0afb60;
 0x10d50c2473146bbc76275fcc589d038dec8db28728789f28b6d5f504bd1645ca;
 0x109b7f411ba0e4c9b2b70caf5c36a7b194be7c11ad24378bfedb68592ba8118b;
 0x61e8328fb5593f92a53dfd40e1022e6231ba45948506282536b08b4476c1538;
 0x1b589243847198ded90b644bee31ac58067debf3f07d3c51cfa5a0dd9f6d9784;
 0x4b00c0da1f851e59863b053bd4c6087190f0bdcced99d5ce6f67a420a3bd1f7;
 0x239941a46c2b93d9126a70163009a7ac27f8a8d42e35018b3bec8cdcb5ddfd67;
 0x109b7f411ba0e4c9b2b70caf5c36a7b194be7c11ad24378bfedb68592ba8118b;
 0x204f26ca7993b03ac2c35377cb0a3712bfc9bc3ec0bfecb4e87ef6814acf2ea2;
 0x85aff9c7fdadba039d832d8be165a1e5747cf7308d515e348ef117e926d721c;
 0x249042a8dc111f27c4ae9db044c0b0b3f10e57d05e093158efd375df00ea2068;
 0x6e799bcdf2b4a74542854f3029803e2f84550665203327b3e0825977413e96b;
 0x109b7f411ba0e4c9b2b70caf5c36a7b194be7c11ad24378bfedb68592ba8118b;
 0x1cb3caed4bffb6aca9f4d2c002921bc3fffed333cae12085c612496183b87996;
 0xb47e9755fae480128a128bfd4faa6a3dd6ea03cab566889dcd99e84d310d51c;
 0xc7e4cea365c2061920a0c9fd2c360a6506293bc024fd1ca3f0bb730da886a4f;
 0x21da1f701bac77bcbbaa30d964d6f6f63dbe1b20d9d6988c8dcd7ba4187215df;
 0x109b7f411ba0e4c9b2b70caf5c36a7b194be7c11ad24378bfedb68592ba8118b;
 0x9ae612e8ba1ca1370905fb67899d10db86b47bd19965b6edd1a9486e3c6cc55;
 0x262e1e0b56cac47fc150f284491190e6aab75445b0c99373fe1f7a0e3b95cf3d;
 0x234bf4a7dce7587c2c87c293e3bb7c9e2a7bfa5f29fd4ddeaa5d3f67491d34bd;
 0x2f6cbac694c886b02d0a527cac744fb658d2690e213d7432eee67f6cb69f70c2;
 0x109b7f411ba0e4c9b2b70caf5c36a7b194be7c11ad24378bfedb68592ba8118b;
 0x22accb18b7c49b4b7bb8c9fdf78b7aded52aa1842fff818d9a3300876dec3ad9;
 0x81e2f0652f898c6d659f22d2c77be302eabd9182a0b3d3cbf623a1df7f8f2fc;
 0x12c0a25e70d006eccea3ada75d669b8c534b962890f3ffc016b3186ad675b935;
 0x10ef9c23848128cc2fd6fc869df24d7ab56efd349edd56f49f8d4f2381df3259;
 0x109b7f411ba0e4c9b2b70caf5c36a7b194be7c11ad24378bfedb68592ba8118b;
 0x2161cd280772819dd4a81262b71df1bcc2c1d41b9491e0620bda347962b240f0;
 0x2cebb0ae5108318eb406590041b5248292533364f799bc41b7f4fdd12cb8d38a;
 0x2b2092f86b5979a7fe4f7c22d9561f3bf2852283a656880fb759e08709a0a62f;
 0x1566b3402d774b8c08146188425a442450cfc900cf643e7382b2d8507a065fed;
 0x109b7f411ba0e4c9b2b70caf5c36a7b194be7c11ad24378bfedb68592ba8118b;
 0x11a316aa31607f268fb4c56d6c57ba01627c3635fccf8d3d1a163e601d1a0173;
 0xde7ee069c934256b782648b560e595408a5e8434644609152e353d9c2874e44;
 0x2d36f4029245704cc84df0297708c5e5845c36ae706c72e67128b8949eab1af;
 0x1b8cc326b5ee160f53198c217fb34e899bde46cd82dabdc284d7951d546f858;
 0x109b7f411ba0e4c9b2b70caf5c36a7b194be7c11ad24378bfedb68592ba8118b;
 0x27625da0f73ea07110689fb2187b71694cbf9203fd4ddf8a96ece85407550ebb;
 0x1cd8338a3e5b1ad7cdc0da581a6950f6dea349c3edda06cb99ba025b94e4790d;
 0x5ea02d65b209f6da763856c94b6438c78a8aed8d3e67e877a10a84072741a56;
 0x9f7cb68d4e388f85366cfcf284a895d8b6250ced627e810817743ce03330a55;
 0x109b7f411ba0e4c9b2b70caf5c36a7b194be7c11ad24378bfedb68592ba8118b;
 0x18c6230ddc0f896827b043f5e58dbd1aec13995a202e4ebcdfeb969e9d5c1212;
 0x73a6114b997285e1a91c0a0fdccdaa8452e4f07bfd2e1a10578232096db6dcd;
 0x2e78746340b2a6d222c6a1fc0838adf5fe013f39b1660ce7a3e7742b2f37be7f;
 0x7aa27e7150baddd06303ad8e5e4bf4249b7ea846553def28e675259d3e5c851;
 0x109b7f411ba0e4c9b2b70caf5c36a7b194be7c11ad24378bfedb68592ba8118b;
 0xb66fdec210ea4eabf623d2712cf4d9fa90273ccb4643f680cbc98345715ead8;
 0x2fb6a29d9f394a589b633b8a4d6be51c9c0601ce0b140be641acea41c49aa5e3;
 0x29025cc66fd041c4fc845e9c1c2cd1288569fb243d049bd675a69dc889b2ce2a;
 0x150963f0aca9bcbe4126214ab9c627a6f7ed731cfa695168b85d534b17be3f48;
 0x109b7f411ba0e4c9b2b70caf5c36a7b194be7c11ad24378bfedb68592ba8118b;
 0xed59780302257663f72c1bfc6656eb7b5bca2e47bec0d5798a08a32a61a8a65;
 0x7e19cb8a893369b3d30ae188c767f391c11888a3000debfc8d30c06143cc084;
 0x600c7d2b6946345e5f1eeeafb5eb8ec2b6ecfe528d2c052cd860afb4a3aa272;
 0x596083b6c972bc13022a1f33d6523b4773f2cd0a480e19ea0125119f0385705;
 0x109b7f411ba0e4c9b2b70caf5c36a7b194be7c11ad24378bfedb68592ba8118b;
 0x210b5c36f27a07d97f98b9d8663d85db2e64513099a8e1ef6db21043631e24c4;
 0x13bb2764bf1475cfc7bb9f3d563c5cc201c2489874e9159326a8f4930b7883f9;
 0x202cf557d625c26080eb082862a76757287872b181e89997219e4b7576e24d30;
 0xe561c3f8bd4f76e76d49e97142d220601fbc5a03d905a4728ea1f95fd8824b2;
 0x109b7f411ba0e4c9b2b70caf5c36a7b194be7c11ad24378bfedb68592ba8118b;
 0xde20097480e7555471785de07bd9809d57dd859bbe827307c33ae9ed7890597;
 0x72f2a6287fb984bb810df8c5788eebcfd2825613cb72bb80cde8edd76d2e97d;
 0x2969f27eed31a480b9c36c764379dbca2cc8fdd1415c3dded62940bcde0bd771;
 0x143021ec686a3f330d5f9e654638065ce6cd79e28c5b3753326244ee65a1b1a7].
(* poseidon_bn128_constants.rs:331-586 *)
Definition bn_c4 : list Z := [0x19b849f69450b06848da1d39bd5e4a4302bb86744edc26238b0878e269ed23e5;
 0x265ddfe127dd51bd7239347b758f0a1320eb2cc7450acc1dad47f80c8dcf34d6;
 0x199750ec472f1809e0f66a545e1e51624108ac845015c2aa3dfc36bab497d8aa;
 0x157ff3fe65ac7208110f06a5f74302b14d743ea25067f0ffd032f787c7f1cdf8;
 0x2e49c43c4569dd9c5fd35ac45fca33f10b15c590692f8beefe18f4896ac94902;
 0xe35fb89981890520d4aef2b6d6506c3cb2f0b6973c24fa82731345ffa2d1f1e;
 0x251ad47cb15c4f1105f109ae5e944f1ba9d9e7806d667ffec6fe723002e0b996;
 0x13da07dc64d428369873e97160234641f8beb56fdd05e5f3563fa39d9c22df4e;
 0xc009b84e650e6d23dc00c7dccef7483a553939689d350cd46e7b89055fd4738;
 0x11f16b1c63a854f01992e3956f42d8b04eb650c6d535eb0203dec74befdca06;
 0xed69e5e383a688f209d9a561daa79612f3f78d0467ad45485df07093f367549;
 0x4dba94a7b0ce9e221acad41472b6bbe3aec507f5eb3d33f463672264c9f789b;
 0xa3f2637d840f3a16eb094271c9d237b6036757d4bb50bf7ce732ff1d4fa28e8;
 0x259a666f129eea198f8a1c502fdb38fa39b1f075569564b6e54a485d1182323f;
 0x28bf7459c9b2f4c6d8e7d06a4ee3a47f7745d4271038e5157a32fdf7ede0d6a1;
 0xa1ca941f057037526ea200f489be8d4c37c85bbcce6a2aeec91bd6941432447;
 0xc6f8f958be0e93053d7fd4fc54512855535ed1539f051dcb43a26fd926361cf;
 0x123106a93cd17578d426e8128ac9d90aa9e8a00708e296e084dd57e69caaf811;
 0x26e1ba52ad9285d97dd3ab52f8e840085e8fa83ff1e8f1877b074867cd2dee75;
 0x1cb55cad7bd133de18a64c5c47b9c97cbe4d8b7bf9e095864471537e6a4ae2c5;
 0x1dcd73e46acd8f8e0e2c7ce04bde7f6d2a53043d5060a41c7143f08e6e9055d0;
 0x11003e32f6d9c66f5852f05474a4def0cda294a0eb4e9b9b12b9bb4512e5574;
 0x2b1e809ac1d10ab29ad5f20d03a57dfebadfe5903f58bafed7c508dd2287ae8c;
 0x2539de1785b735999fb4dac35ee17ed0ef995d05ab2fc5faeaa69ae87bcec0a5;
 0xc246c5a2ef8ee0126497f222b3e0a0ef4e1c3d41c86d46e43982cb11d77951d;
 0x192089c4974f68e95408148f7c0632edbb09e6a6ad1a1c2f3f0305f5d03b527b;
 0x1eae0ad8ab68b2f06a0ee36eeb0d0c058529097d91096b756d8fdc2fb5a60d85;
 0x179190e5d0e22179e46f8282872abc88db6e2fdc0dee99e69768bd98c5d06bfb;
 0x29bb9e2c9076732576e9a81c7ac4b83214528f7db00f31bf6cafe794a9b3cd1c;
 0x225d394e42207599403efd0c2464a90d52652645882aac35b10e590e6e691e08;
 0x64760623c25c8cf753d238055b444532be13557451c087de09efd454b23fd59;
 0x10ba3a0e01df92e87f301c4b716d8a394d67f4bf42a75c10922910a78f6b5b87;
 0xe070bf53f8451b24f9c6e96b0c2a801cb511bc0c242eb9d361b77693f21471c;
 0x1b94cd61b051b04dd39755ff93821a73ccd6cb11d2491d8aa7f921014de252fb;
 0x1d7cb39bafb8c744e148787a2e70230f9d4e917d5713bb050487b5aa7d74070b;
 0x2ec93189bd1ab4f69117d0fe980c80ff8785c2961829f701bb74ac1f303b17db;
 0x2db366bfdd36d277a692bb825b86275beac404a19ae07a9082ea46bd83517926;
 0x62100eb485db06269655cf186a68532985275428450359adc99cec6960711b8;
 0x761d33c66614aaa570e7f1e8244ca1120243f92fa59e4f900c567bf41f5a59b;
 0x20fc411a114d13992c2705aa034e3f315d78608a0f7de4ccf7a72e494855ad0d;
 0x25b5c004a4bdfcb5add9ec4e9ab219ba102c67e8b3effb5fc3a30f317250bc5a;
 0x23b1822d278ed632a494e58f6df6f5ed038b186d8474155ad87e7dff62b37f4b;
 0x22734b4c5c3f9493606c4ba9012499bf0f14d13bfcfcccaa16102a29cc2f69e0;
 0x26c0c8fe09eb30b7e27a74dc33492347e5bdff409aa3610254413d3fad795ce5;
 0x70dd0ccb6bd7bbae88eac03fa1fbb26196be3083a809829bbd626df348ccad9;
 0x12b6595bdb329b6fb043ba78bb28c3bec2c0a6de46d8c5ad6067c4ebfd4250da;
 0x248d97d7f76283d63bec30e7a5876c11c06fca9b275c671c5e33d95bb7e8d729;
 0x1a306d439d463b0816fc6fd64cc939318b45eb759ddde4aa106d15d9bd9baaaa;
 0x28a8f8372e3c38daced7c00421cb4621f4f1b54ddc27821b0d62d3d6ec7c56cf;
 0x94975717f9a8a8bb35152f24d43294071ce320c829f388bc852183e1e2ce7e;
 0x4d5ee4c3aa78f7d80fde60d716480d3593f74d4f653ae83f4103246db2e8d65;
 0x2a6cf5e9aa03d4336349ad6fb8ed2269c7bef54b8822cc76d08495c12efde187;
 0x2304d31eaab960ba9274da43e19ddeb7f792180808fd6e43baae48d7efcba3f3;
 0x3fd9ac865a4b2a6d5e7009785817249bff08a7e0726fcb4e1c11d39d199f0b0;
 0xb7258ded52bbda2248404d55ee5044798afc3a209193073f7954d4d63b0b64;
 0x159f81ada0771799ec38fca2d4bf65ebb13d3a74f3298db36272c5ca65e92d9a;
 0x1ef90e67437fbc8550237a75bc28e3bb9000130ea25f0c5471e144cf4264431f;
 0x1e65f838515e5ff0196b49aa41a2d2568df739bc176b08ec95a79ed82932e30d;
 0x2b1b045def3a166cec6ce768d079ba74b18c844e570e1f826575c1068c94c33f;
 0x832e5753ceb0ff6402543b1109229c165dc2d73bef715e3f1c6e07c168bb173;
 0x2f614e9cedfb3dc6b762ae0a37d41bab1b841c2e8b6451bc5a8e3c390b6ad16;
 0xe2427d38bd46a60dd640b8e362cad967370ebb777bedff40f6a0be27e7ed705;
 0x493630b7c670b6deb7c84d414e7ce79049f0ec098c3c7c50768bbe29214a53a;
 0x22ead100e8e482674decdab17066c5a26bb1515355d5461a3dc06cc85327cea9;
 0x25b3e56e655b42cdaae2626ed2554d48583f1ae35626d04de5084e0b6d2a6f16;
 0x1e32752ada8836ef5837a6cde8ff13dbb599c336349e4c584b4fdc0a0cf6f9d0;
 0x2fa2a871c15a387cc50f68f6f3c3455b23c00995f05078f672a9864074d412e5;
 0x2f569b8a9a4424c9278e1db7311e889f54ccbf10661bab7fcd18e7c7a7d83505;
 0x44cb455110a8fdd531ade530234c518a7df93f7332ffd2144165374b246b43d;
 0x227808de93906d5d420246157f2e42b191fe8c90adfe118178ddc723a5319025;
 0x2fcca2934e046bc623adead873579865d03781ae090ad4a8579d2e7a6800355;
 0xef915f0ac120b876abccceb344a1d36bad3f3c5ab91a8ddcbec2e060d8befac;
 0x1797130f4b7a3e1777eb757bc6f287f6ab0fb85f6be63b09f3b16ef2b1405d38;
 0xa76225dc04170ae3306c85abab59e608c7f497c20156d4d36c668555decc6e5;
 0x1fffb9ec1992d66ba1e77a7b93209af6f8fa76d48acb664796174b5326a31a5c;
 0x25721c4fc15a3f2853b57c338fa538d85f8fbba6c6b9c6090611889b797b9c5f;
 0xc817fd42d5f7a41215e3d07ba197216adb4c3790705da95eb63b982bfcaf75a;
 0x13abe3f5239915d39f7e13c2c24970b6df8cf86ce00a22002bc15866e52b5a96;
 0x2106feea546224ea12ef7f39987a46c85c1bc3dc29bdbd7a92cd60acb4d391ce;
 0x21ca859468a746b6aaa79474a37dab49f1ca5a28c748bc7157e1b3345bb0f959;
 0x5ccd6255c1e6f0c5cf1f0df934194c62911d14d0321662a8f1a48999e34185b;
 0xf0e34a64b70a626e464d846674c4c8816c4fb267fe44fe6ea28678cb09490a4;
 0x558531a4e25470c6157794ca36d0e9647dbfcfe350d64838f5b1a8a2de0d4bf;
 0x9d3dca9173ed2faceea125157683d18924cadad3f655a60b72f5864961f1455;
 0x328cbd54e8c0913493f866ed03d218bf23f92d68aaec48617d4c722e5bd4335;
 0x2bf07216e2aff0a223a487b1a7094e07e79e7bcc9798c648ee3347dd5329d34b;
 0x1daf345a58006b736499c583cb76c316d6f78ed6a6dffc82111e11a63fe412df;
 0x176563472456aaa746b694c60e1823611ef39039b2edc7ff391e6f2293d2c404;
 0x2ef1e0fad9f08e87a3bb5e47d7e33538ca964d2b7d1083d4fb0225035bd3f8db;
 0x226c9b1af95babcf17b2b1f57c7310179c1803dec5ae8f0a1779ed36c817ae2a;
 0x14bce3549cc3db7428126b4c3a15ae0ff8148c89f13fb35d35734eb5d4ad0def;
 0x2debff156e276bb5742c3373f2635b48b8e923d301f372f8e550cfd4034212c7;
 0x2d4083cf5a87f5b6fc2395b22e356b6441afe1b6b29c47add7d0432d1d4760c7;
 0xc225b7bcd04bf9c34b911262fdc9c1b91bf79a10c0184d89c317c53d7161c29;
 0x3152169d4f3d06ec33a79bfac91a02c99aa0200db66d5aa7b835265f9c9c8f3;
 0xb61811a9210be78b05974587486d58bddc8f51bfdfebbb87afe8b7aa7d3199c;
 0x203e000cad298daaf7eba6a5c5921878b8ae48acf7048f16046d637a533b6f78;
 0x1a44bf0937c722d1376672b69f6c9655ba7ee386fda1112c0757143d1bfa9146;
 0x376b4fae08cb03d3500afec1a1f56acb8e0fde75a2106d7002f59c5611d4daa;
 0x780af2ca1cad6465a2171250fdfc32d6fc241d3214177f3d553ef363182185;
 0x10774d9ab80c25bdeb808bedfd72a8d9b75dbe18d5221c87e9d857079bdc31d5;
 0x10dc6e9c006ea38b04b1e03b4bd9490c0d03f98929ca1d7fb56821fd19d3b6e8;
 0x544b8338791518b2c7645a50392798b21f75bb60e3596170067d00141cac16;
 0x222c01175718386f2e2e82eb122789e352e105a3b8fa852613bc534433ee428c;
 0x2840d045e9bc22b259cfb8811b1e0f45b77f7bdb7f7e2b46151a1430f608e3c5;
 0x62752f86eebe11a009c937e468c335b04554574c2990196508e01fa5860186b;
 0x6041bdac48205ac87adb87c20a478a71c9950c12a80bc0a55a8e83eaaf04746;
 0x4a533f236c422d1ff900a368949b0022c7a2ae092f308d82b1dcbbf51f5000d;
 0x13e31d7a67232fd811d6a955b3d4f25dfe066d1e7dc33df04bde50a2b2d05b2a;
 0x11c2683ae91eb4dfbc13d6357e8599a9279d1648ff2c95d2f79905bb13920f1;
 0xb0d219346b8574525b1a270e0b4cba5d56c928e3e2c2bd0a1ecaed015aaf6ae;
 0x14abdec8db9c6dc970291ee638690209b65080781ef9fd13d84c7a726b5f1364;
 0x1a0b70b4b26fdc28fcd32aa3d266478801eb12202ef47ced988d0376610be106;
 0x278543721f96d1307b6943f9804e7fe56401deb2ef99c4d12704882e7278b607;
 0x16eb59494a9776cf57866214dbd1473f3f0738a325638d8ba36535e011d58259;
 0x2567a658a81ffb444f240088fa5524c69a9e53eeab6b7f8c41c3479dcf8c644a;
 0x29aa1d7c151e9ad0a7ab39f1abd9cf77ab78e0215a5715a6b882ade840bb13d8;
 0x15c091233e60efe0d4bbfce2b36415006a4f017f9a85388ce206b91f99f2c984;
 0x16bd7d22ff858e5e0882c2c999558d77e7673ad5f1915f9feb679a8115f014cf;
 0x2db50480a07be0eb2c2e13ed6ef4074c0182d9b668b8e08ffe6769250042025;
 0x5e4a220e6a3bc9f7b6806ec9d6cdba186330ef2bf7adb4c13ba866343b73119;
 0x1dda05ebc30170bc98cbf2a5ee3b50e8b5f70bc424d39fa4104d37f1cbcf7a42;
 0x184bef721888187f645b6fee3667f3c91da214414d89ba5cd301f22b0de8990;
 0x1498a307e68900065f5e8276f62aef1c37414b84494e1577ad1a6d64341b78ec;
 0x25f40f82b31dacc4f4939800b9d2c3eacef737b8fab1f864fe33548ad46bd49d;
 0x9d317cc670251943f6f5862a30d2ea9e83056ce4907bfbbcb1ff31ce5bb9650;
 0x2f77d77786d979b23ba4ce4a4c1b3bd0a41132cd467a86ab29b913b6cf3149d0;
 0xf53dafd535a9f4473dc266b6fccc6841bbd336963f254c152f89e785f729bbf;
 0x25c1fd72e223045265c3a099e17526fa0e6976e1c00baf16de96de85deef2fa2;
 0x2a902c8980c17faae368d385d52d16be41af95c84eaea3cf893e65d6ce4a8f62;
 0x1ce1580a3452ecf302878c8976b82be96676dd114d1dc8d25527405762f83529;
 0x24a6073f91addc33a49a1fa306df008801c5ec569609034d2fc50f7f0f4d0056;
 0x25e52dbd6124530d9fc27fe306d71d4583e07ca554b5d1577f256c68b0be2b74;
 0x23dffae3c423fa7a93468dbccfb029855974be4d0a7b29946796e5b6cd70f15d;
 0x6342da370cc0d8c49b77594f6b027c480615d50be36243a99591bc9924ed6f5;
 0x2754114281286546b75f09f115fc751b4778303d0405c1b4cc7df0d8e9f63925;
 0x15c19e8534c5c1a8862c2bc1d119eddeabf214153833d7bdb59ee197f8187cf5;
 0x265fe062766d08fab4c78d0d9ef3cabe366f3be0a821061679b4b3d2d77d5f3e;
 0x13ccf689d67a3ec9f22cb7cd0ac3a327d377ac5cd0146f048debfd098d3ec7be;
 0x17662f7456789739f81cd3974827a887d92a5e05bdf3fe6b9fbccca4524aaebd;
 0x21b29c76329b31c8ef18631e515f7f2f82ca6a5cca70cee4e809fd624be7ad5d;
 0x18137478382aadba441eb97fe27901989c06738165215319939eb17b01fa975c;
 0x2bc07ea2bfad68e8dc724f5fef2b37c2d34f761935ffd3b739ceec4668f37e88;
 0x2ddb2e376f54d64a563840480df993feb4173203c2bd94ad0e602077aef9a03e;
 0x277eb50f2baa706106b41cb24c602609e8a20f8d72f613708adb25373596c3f7;
 0xd4de47e1aba34269d0c620904f01a56b33fc4b450c0db50bb7f87734c9a1fe5;
 0xb8442bfe9e4a1b4428673b6bd3eea6f9f445697058f134aae908d0279a29f0c;
 0x11fe5b18fbbea1a86e06930cb89f7d4a26e186a65945e96574247fddb720f8f5;
 0x224026f6dfaf71e24d25d8f6d9f90021df5b774dcad4d883170e4ad89c33a0d6;
 0xb2ca6a999fe6887e0704dad58d03465a96bc9e37d1091f61bc9f9c62bbeb824;
 0x221b63d66f0b45f9d40c54053a28a06b1d0a4ce41d364797a1a7e0c96529f421;
 0x30185c48b7b2f1d53d4120801b047d087493bce64d4d24aedce2f4836bb84ad4;
 0x23f5d372a3f0e3cba989e223056227d3533356f0faa48f27f8267318632a61f0;
 0x2716683b32c755fd1bf8235ea162b1f388e1e0090d06162e8e6dfbe4328f3e3b;
 0x977545836866fa204ca1d853ec0909e3d140770c80ac67dc930c69748d5d4bc;
 0x1444e8f592bdbfd8025d91ab4982dd425f51682d31472b05e81c43c0f9434b31;
 0x26e04b65e9ca8270beb74a1c5cb8fee8be3ffbfe583f7012a00f874e7718fbe3;
 0x22a5c2fa860d11fe34ee47a5cd9f869800f48f4febe29ad6df69816fb1a914d2;
 0x174b54d9907d8f5c6afd672a738f42737ec338f3a0964c629f7474dd44c5c8d7;
 0x1db1db8aa45283f31168fa66694cf2808d2189b87c8c8143d56c871907b39b87;
 0x1530bf0f46527e889030b8c7b7dfde126f65faf8cce0ab66387341d813d1bfd1;
 0xb73f613993229f59f01c1cec8760e9936ead9edc8f2814889330a2f2bade457;
 0x29c25a22fe2164604552aaea377f448d587ab977fc8227787bd2dc0f36bcf41e;
 0x2b30d53ed1759bfb8503da66c92cf4077abe82795dc272b377df57d77c875526;
 0x12f6d703b5702aab7b7b7e69359d53a2756c08c85ede7227cf5f0a2916787cd2;
 0x2520e18300afda3f61a40a0b8837293a55ad01071028d4841ffa9ac706364113;
 0x1ec9daea860971ecdda8ed4f346fa967ac9bc59278277393c68f09fa03b8b95f;
 0xa99b3e178db2e2e432f5cd5bef8fe4483bf5cbf70ed407c08aae24b830ad725;
 0x7cda9e63db6e39f086b89b601c2bbe407ee0abac3c817a1317abad7c5778492;
 0x8c9c65a4f955e8952d571b191bb0adb49bd8290963203b35d48aab38f8fc3a3;
 0x2737f8ce1d5a67b349590ddbfbd709ed9af54a2a3f2719d33801c9c17bdd9c9e;
 0x1049a6c65ff019f0d28770072798e8b7909432bd0c129813a9f179ba627f7d6a;
 0x18b4fe968732c462c0ea5a9beb27cecbde8868944fdf64ee60a5122361daeddb;
 0x2ff2b6fd22df49d2440b2eaeeefa8c02a6f478cfcf11f1b2a4f7473483885d19;
 0x2ec5f2f1928fe932e56c789b8f6bbcb3e8be4057cbd8dbd18a1b352f5cef42ff;
 0x265a5eccd8b92975e33ad9f75bf3426d424a4c6a7794ee3f08c1d100378e545e;
 0x2405eaa4c0bde1129d6242bb5ada0e68778e656cfcb366bf20517da1dfd4279c;
 0x94c97d8c194c42e88018004cbbf2bc5fdb51955d8b2d66b76dd98a2dbf60417;
 0x2c30d5f33bb32c5c22b9979a605bf64d508b705221e6a686330c9625c2afe0b8;
 0x1a75666f6241f6825d01cc6dcb1622d4886ea583e87299e6aa2fc716fdb6cf5;
 0xa3290e8398113ea4d12ac091e87be7c6d359ab9a66979fcf47bf2e87d382fcb;
 0x154ade9ca36e268dfeb38461425bb0d8c31219d8fa0dfc75ecd21bf69aa0cc74;
 0x27aa8d3e25380c0b1b172d79c6f22eee99231ef5dc69d8dc13a4b5095d028772;
 0x2cf4051e6cab48301a8b2e3bca6099d756bbdf485afa1f549d395bbcbd806461;
 0x301e70f729f3c94b1d3f517ddff9f2015131feab8afa5eebb0843d7f84b23e71;
 0x298beb64f812d25d8b4d9620347ab02332dc4cef113ae60d17a8d7a4c91f83bc;
 0x1b362e72a5f847f84d03fd291c3c471ed1c14a15b221680acf11a3f02e46aa95;
 0xdc8a2146110c0b375432902999223d5aa1ef6e78e1e5ebcbc1d9ba41dc1c737;
 0xa48663b34ce5e1c05dc93092cb69778cb21729a72ddc03a08afa1eb922ff279;
 0xa87391fb1cd8cdf6096b64a82f9e95f0fe46f143b702d74545bb314881098ee;
 0x1b5b2946f7c28975f0512ff8e6ca362f8826edd7ea9c29f382ba8a2a0892fd5d;
 0x1001cf512ac241d47ebe2239219bc6a173a8bbcb8a5b987b4eac1f533315b6b;
 0x2fd977c70f645db4f704fa7d7693da727ac093d3fb5f5febc72beb17d8358a32;
 0x23c0039a3fab4ad3c2d7cc688164f39e761d5355c05444d99be763a97793a9c4;
 0x19d43ee0c6081c052c9c0df6161eaac1aec356cf435888e79f27f22ff03fa25d;
 0x2d9b10c2f2e7ac1afddccffd94a563028bf29b646d020830919f9d5ca1cefe59;
 0x2457ca6c2f2aa30ec47e4aff5a66f5ce2799283e166fc81cdae2f2b9f83e4267;
 0xabc392fe85eda855820592445094022811ee8676ed6f0c3044dfb54a7c10b35;
 0x19d2cc5ca549d1d40cebcd37f3ea54f31161ac3993acf3101d2c2bc30eac1eb0;
 0xf97ae3033ffa01608aafb26ae13cd393ee0e4ec041ba644a3d3ab546e98c9c8;
 0x16dbc78fd28b7fb8260e404cf1d427a7fa15537ea4e168e88a166496e88cfeca;
 0x240faf28f11499b916f085f73bc4f22eef8344e576f8ad3d1827820366d5e07b;
 0xa1bb075aa37ff0cfe6c8531e55e1770eaba808c8fdb6dbf46f8cab58d9ef1af;
 0x2e47e15ea4a47ff1a6a853aaf3a644ca38d5b085ac1042fdc4a705a7ce089f4d;
 0x166e5bf073378348860ca4a9c09d39e1673ab059935f4df35fb14528375772b6;
 0x18b42d7ffdd2ea4faf235902f057a2740cacccd027233001ed10f96538f0916f;
 0x89cb1b032238f5e4914788e3e3c7ead4fc368020b3ed38221deab1051c37702;
 0x242acd3eb3a2f72baf7c7076dd165adf89f9339c7b971921d9e70863451dd8d1;
 0x174fbb104a4ee302bf47f2bd82fce896eac9a068283f326474af860457245c3b;
 0x17340e71d96f466d61f3058ce092c67d2891fb2bb318613f780c275fe1116c6b;
 0x1e8e40ac853b7d42f00f2e383982d024f098b9f8fd455953a2fd380c4df7f6b2;
 0x529898dc0649907e1d4d5e284b8d1075198c55cad66e8a9bf40f92938e2e961;
 0x2162754db0baa030bf7de5bb797364dce8c77aa017ee1d7bf65f21c4d4e5df8f;
 0x12c7553698c4bf6f3ceb250ae00c58c2a9f9291efbde4c8421bef44741752ec6;
 0x292643e3ba2026affcb8c5279313bd51a733c93353e9d9c79cb723136526508e;
 0xccf13e0cb6f9d81d52951bea990bd5b6c07c5d98e66ff71db6e74d5b87d158;
 0x185d1e20e23b0917dd654128cf2f3aaab6723873cb30fc22b0f86c15ab645b4b;
 0x14c61c836d55d3df742bdf11c60efa186778e3de0f024c0f13fe53f8d8764e1f;
 0xf356841b3f556fce5dbe4680457691c2919e2af53008184d03ee1195d72449e;
 0x1b8fd9ff39714e075df124f887bf40b383143374fd2080ba0c0a6b6e8fa5b3e8;
 0xe86a8c2009c140ca3f873924e2aaa14fc3c8ae04e9df0b3e9103418796f6024;
 0x2e6c5e898f5547770e5462ad932fcdd2373fc43820ca2b16b0861421e79155c8;
 0x5d797f1ab3647237c14f9d1df032bc9ff9fe1a0ecd377972ce5fd5a0c014604;
 0x29a3110463a5aae76c3d152875981d0c1daf2dcd65519ef5ca8929851da8c008;
 0x2974da7bc074322273c3a4b91c05354cdc71640a8bbd1f864b732f8163883314;
 0x1ed0fb06699ba249b2a30621c05eb12ca29cb91aa082c8bfcce9c522889b47dc;
 0x1c793ef0dcc51123654ff26d8d863feeae29e8c572eca912d80c8ae36e40fe9b;
 0x1e6aac1c6d3dd3157956257d3d234ef18c91e82589a78169fbb4a8770977dc2f;
 0x1a20ada7576234eee6273dd6fa98b25ed037748080a47d948fcda33256fb6bf5;
 0x191033d6d85ceaa6fc7a9a23a6fd9996642d772045ece51335d49306728af96c;
 0x6e5979da7e7ef53a825aa6fddc3abfc76f200b3740b8b232ef481f5d06297b;
 0xb0d7e69c651910bbef3e68d417e9fa0fbd57f596c8f29831eff8c0174cdb06d;
 0x25caf5b0c1b93bc516435ec084e2ecd44ac46dbbb033c5112c4b20a25c9cdf9d;
 0x12c1ea892cc31e0d9af8b796d9645872f7f77442d62fd4c8085b2f150f72472a;
 0x16af29695157aba9b8bbe3afeb245feee5a929d9f928b9b81de6dadc78c32aae;
 0x136df457c80588dd687fb2f3be18691705b87ec5a4cfdc168d31084256b67dc;
 0x1639a28c5b4c81166aea984fba6e71479e07b1efbc74434db95a285060e7b089;
 0x3d62fbf82fd1d4313f8e650f587ec06816c28b700bdc50f7e232bd9b5ca9b76;
 0x11aeeb527dc8ce44b4d14aaddca3cfe2f77a1e40fc6da97c249830de1edfde54;
 0x13f9b9a41274129479c5e6138c6c8ee36a670e6bc68c7a49642b645807bfc824;
 0xe4772fa3d75179dc8484cd26c7c1f635ddeeed7a939440c506cae8b7ebcd15b;
 0x1b39a00cbc81e427de4bdec58febe8d8b5971752067a612b39fc46a68c5d4db4;
 0x2bedb66e1ad5a1d571e16e2953f48731f66463c2eb54a245444d1c0a3a25707e;
 0x2cf0a09a55ca93af8abd068f06a7287fb08b193b608582a27379ce35da915dec;
 0x2d1bd78fa90e77aa88830cabfef2f8d27d1a512050ba7db0753c8fb863efb387;
 0x65610c6f4f92491f423d3071eb83539f7c0d49c1387062e630d7fd283dc3394;
 0x2d933ff19217a5545013b12873452bebcc5f9969033f15ec642fb464bd607368;
 0x1aa9d3fe4c644910f76b92b3e13b30d500dae5354e79508c3c49c8aa99e0258b;
 0x27ef04869e482b1c748638c59111c6b27095fa773e1aca078cea1f1c8450bdd;
 0x2b7d524c5172cbbb15db4e00668a8c449f67a2605d9ec03802e3fa136ad0b8fb;
 0xc7c382443c6aa787c8718d86747c7f74693ae25b1e55df13f7c3c1dd735db0f;
 0xb4567186bc3f7c62a7b56acf4f76207a1f43c2d30d0fe4a627dcdd9bd79078;
 0x1e41fc29b825454fe6d61737fe08b47fb07fe739e4c1e61d0337490883db4fd5;
 0x12507cd556b7bbcc72ee6dafc616584421e1af872d8c0e89002ae8d3ba0653b6;
 0x13d437083553006bcef312e5e6f52a5d97eb36617ef36fe4d77d3e97f71cb5db;
 0x163ec73251f85443687222487dda9a65467d90b22f0b38664686077c6a4486d5].
(* poseidon_bn128_constants.rs:10921-10942 *)
Definition bn_m4 : list (list Z) := [[0x236d13393ef85cc48a351dd786dd7a1de5e39942296127fd87947223ae5108ad;
 0x277686494f7644bbc4a9b194e10724eb967f1dc58718e59e3cedc821b2a7ae19;
 0x23db68784e3f0cc0b85618826a9b3505129c16479973b0a84a4529e66b09c62;
 0x1d359d245f286c12d50d663bae733f978af08cdbd63017c57b3a75646ff382c1];
 [0x2a75a171563b807db525be259699ab28fe9bc7fb1f70943ff049bc970e841a0c;
 0x83abff5e10051f078e2827d092e1ae808b4dd3e15ccc3706f38ce4157b6770e;
 0x1a5ad71bbbecd8a97dc49cfdbae303ad24d5c4741eab8b7568a9ff8253a1eb6f;
 0xd745fd00dd167fb86772133640f02ce945004a7bc2c59e8790f725c5d84f0af];
 [0x2070679e798782ef592a52ca9cef820d497ad2eecbaa7e42f366b3e521c4ed42;
 0x2e18c8570d20bf5df800739a53da75d906ece318cd224ab6b3a2be979e2d7eab;
 0xfa86f0f27e4d3dd7f3367ce86f684f1f2e4386d3e5b9f38fa283c6aa723b608;
 0x3f3e6fab791f16628168e4b14dbaeb657035ee3da6b2ca83f0c2491e0b403eb];
 [0x2f545e578202c9732488540e41f783b68ff0613fd79375f8ba8b3d30958e7677;
 0x23810bf82877fc19bff7eefeae3faf4bb8104c32ba4cd701596a15623d01476e;
 0x14fcd5eb0be6d5beeafc4944034cf321c068ef930f10be2207ed58d2a34cdd6;
 0xc15fc3a1d5733dd835eae0823e377f8ba4a8b627627cc2bb661c25d20fb52a]].
(* poseidon_bn128_constants_opt.rs:167-254 *)
Definition bn_C4 : list Z := [0x19b849f69450b06848da1d39bd5e4a4302bb86744edc26238b0878e269ed23e5;
 0x265ddfe127dd51bd7239347b758f0a1320eb2cc7450acc1dad47f80c8dcf34d6;
 0x199750ec472f1809e0f66a545e1e51624108ac845015c2aa3dfc36bab497d8aa;
 0x157ff3fe65ac7208110f06a5f74302b14d743ea25067f0ffd032f787c7f1cdf8;
 0x1b0f68f0726a0514a4d05b377b58aabc45945842e70183784a4ab5a32337b8f8;
 0x1228d2565787140430569d69342d374d85509dea4245db479fdef1a425e27526;
 0x17a8784ecdcdd6e550875c36a89610f7b8c1d245d52f53ff96eeb91283585e0b;
 0x9870a8b450722a2b2d5ee7ae865aaf0aa00adcfc31520a32e0ceaa250aaebaf;
 0x1e1d6aaa902574e3e4055c6b6f03a49b2bbdb7847f940ebc78c0a6d3f9372a64;
 0x2816c4fa6b085487e1eec1eefd92ee9fef40f30190ac61009103d03266550db2;
 0x17359fd88be36ba867000e83f76ffb46660634efbad15dcf4d4d502d427ff51c;
 0xe3004cb44ba455a3f16fefbd0c026404cbac203c0f236baad879610b8661022;
 0xa55f276af1ceb6ebc6c6820f334b26f11ca4af98c833bc1b496193d6b04a7ca;
 0x1ee4b0458adcd4c4861a27adc1404a5981d320b6b8e20e51d31b9b877e8346d;
 0x14315e2753e7fb94f70199f8645d78f87c194a4054e69872b3841da1b4f482f1;
 0x2b7b63ecffd55d95c660f435ad9e2e25f266cb57e17ebd1b6b0d75e88a6a56d6;
 0xbb56fa3e9fd48ab46d4e7295bbe1204b652ebe958221860f56e38db80d83c0;
 0x50653bf5dd59edd6d15fa6071f5005057218b33a8f92a58b9c2656081249f82;
 0x2c575423e24b522655c5a976c65d069287900c8d5825514098c5b13c86f1fcdc;
 0x2ff3a2ccdee91e09a32f74232b704cdd99f72c1f78557a2ce568b07e218071d7;
 0x1144734901a81c1543b8bc6fc9d365f50469eb89949491d3693dbe9c6238d90c;
 0x1eff9a954e24bcd4af20b6ab74d89e1cd38bc694a9e75ea6da217a98db80cd22;
 0x14707de7496c5638f97fe9bd7d485c20ead6bfdbfc0599791e49fad0301cd6df;
 0x13d0de341ba819f90fe3ef1f7ce0a54d8538acdd9b3ef840a91d48ee536042b8;
 0x26520ab1d20055daded712d59b07088458c18afbd0da58aee9f151a903372ba1;
 0x68cb4827ac485fc6e7537a3c0a06d08a4c2790f5c65d9866d75296999f7495f;
 0x7d6baaa2e587c21b03dfa0eb71136e2982cb389b438c8bc282748d0e674e89e;
 0x15b92d36db02cb16b831eeab2e6ed75d126ffbc274cc3362370851526de13d27;
 0x277b9ce89133de7b7918ad5fcfab7323ef5b9c1916b588cd7e5a0d814cbc3395;
 0x2ae847b66b3c5d73b70b733040aa86c51f737092d65c3492d529000fa1802b24;
 0x2fa3e8ae1fef974cded6aba6dc25cf567e16e0af29e675706643f21bf8efd651;
 0xb1d4b9508cec4d19aa53f4efe46c57952dbd368fcbcd454a8b1087bc18a2088;
 0x2d381014d01578b888b3273270babdc393ac392e7958be0478947fafa569bb0;
 0x2e79a827c85406242523a94431007021bc865a45cabcba4368c41d4486fefec8;
 0x207c99b7d594a5c61d7e60cc2365c4c0c804cd434098af6244f0a00c259b347;
 0x119c124086ea58ebb83f14f262c693424360e97e6fb42ae8596badbe9edb2dca;
 0x104ff38cca0f00173ccd0b68bddba09fc543f074f753bd8e413f8334f887a251;
 0x2f5b5377bd156f89845811eb262436638dc038b8cb10e147a87df4c0e2384253;
 0xf70e8e02d1d23968930a8e0db69b1c20204f3e3b4cecd101f81476d0b5ea996;
 0x1ac4653a51071ae722f90a03f006d8575814db782b7f19f607dae4d56ad586b3;
 0x12b12600e3bfd8e7bdfae5ef9c4f3805fa41e74acabf7de817823017a8b23db9;
 0x11b9d19908919dacb7e0f8d0ba77286d417529a18a1d89c405ed1c30289fdd28;
 0x2c350d245f4f75864744f88dbff8fe335b00f4fb688895c1363a7484ace820d3;
 0x16a7f76fd2b2147db6ef94c22c78bff782de17ef73e52da7df82603f422b461f;
 0x1d18d8024be1e96ec25626af06a139f6093545aa504033dac7e285d1cc3db3de;
 0xc8cab1ad5998072945b9b88228f53c295466819fb94d8f6a9ed449be8f7c18c;
 0x1a68d133d703cd406ca30041913ce3423c73b13384187ab1530109b756ad4f7a;
 0x24a58b9e86ce823ff4c45342941417ff23d03c80fcdef9498ca0d860855e01a9;
 0xe6315c93fbb89d38021148b6c35320fb793c41c6a4386d6aed6acfe2f952c57;
 0x2c3806d99a69ce63299e876f5f218c7295d87224795d7568d558696e34c692f8;
 0x59c893a771e94774d49a356494568dd376856ab89705dff25db8273860fa04e;
 0x1166d9819c4faae8982243d0deb1f8977027d5cc56bf52ce260bec5e27e8b0f5;
 0x12806fab3fcb09fc2b79406c3c203c4965fc7259112af2104312e1537327e0a3;
 0x172015e0e33736058f60aa33e82d3dd73dc3ead89f98ded0dba35dcc1d8bda2c;
 0x77ba18800d852d0a34f70ae8cfd68a080296bf9d47a1b40de7e6fd6392a0d30;
 0x2094ecd768bfa8f0df0d78d0d946e1aff4a2d38e029e41479d6e3c0fe79fa8b9;
 0xccebd302afe84c20ff774d3c1f650ca7cd0bca08baa1e261da9c7441a823f89;
 0x5b9303053bb40c73671f5d55b4052e0d5549871f1b5283f01485a6b568cd05;
 0x2527289084ab492275b4cd67d38311a2b816eaa68ee6bdb2389eeefd6ba4c721;
 0x2222f9738290d8d5f2a3eacdad95f12cd4e7417ed2661b012f6448c7503877f2;
 0x226c8208f26d69e6b7e02fe26557e6bd160fcbe27ee741fd1e581161c1789354;
 0x216b208c0261f3c91faf609e15f7a9d4853e40d9204496b2441115d73c2941c5;
 0xe0d660e046a259f3bad6829729b6ae3151fbcd75de33b122fe134ca3d5a4dd6;
 0x240f039d2026b3266f39ba5c4ec48ac6ace88aadaef991498cd52daaa0ffbba8;
 0x28c8cccf7b40a2c3cfd2eee0ec4d160a876a4dfeb408ffe333e92fa5e1ee4d79;
 0xd7f81b4b46d4f247c4243f045a852cc957d2b2923d28eb2fa77b5a9844efd69;
 0x2be432f87b2c5094a82c788457651dd8cdb0200ac3b42860cbf54475996b772f;
 0x13ea39f2d63d9adae187af14dd07b533d45a63435e0ea4e5e555d35e70d4016b;
 0x29e3b1afe1973be9cd1cf4b047325abfaa65cf2b98ff3aed47870461977ec921;
 0x8db7d684e6b841b5e9692498f95a1f950a1cf1eb638bb4e48f3bc1a3c571197;
 0xf4f1041a976aa05196da1c042124e3277ea1a28fb6eeeab4bec1243bd31618b;
 0x5a9d0526d6f18c86b255f00e86ec34e7f8a26c251b51c21fe4c12bdc4c0ff1d;
 0x284b0304dd6ce669bcf650c5ab85c89d4410d472aa6eb00df1b8d17e52f2f3ff;
 0x2363e9b01a0163598962ff86907002f95902e725049294ca7ab10cc7aa3f06ba;
 0x2c2db12647c4c0461dd3290a75c5f2fd8d7f115b3e040cb05dd7e3ad260d842;
 0x2e3c42f671431f9560f3d0863ac445052422d5b993e9fda6b81486b14ffe3a74;
 0x1d38441f228c0ce22ff2882560f5d7ee3b4c0caa101371cb7782ffd97af5fff1;
 0x268141b0e49c59eab1d573ead4e2e1f379364dd133f2cec574c25ade2c794287;
 0x2209cb2e187df1522810d3f28868da6cf52af9a65dbd7b806049f472d966374a;
 0xa5eb2510e6f804d1830d7974ac1677d082034e5388bfaee91a319eca7c1ffab;
 0x1cb2864c38800736f8f3ad98669d3ad7a9d5ee52138e96b8a7015e1089e36ae0;
 0x2af8ed05bfc8f8ada547ee9bc6c7c6c5e8c15c6c0d380a3f9aa277273321b54e;
 0xf85d1593b35be03f79b222885555a252bf1f0a3911d784132c49b1a96ac0f3c;
 0x29095192ec53e0b859eba456295d95bc4567d351a6dad391b8b89707855008c5;
 0x1a92efde1f5fa56aeb02b4c4b8f51ac80831f898c7843407113fbb6011177854;
 0x2a05e8deeea15e4377c080aa70fd6a86dc73f3fdfa6b55f5610614c184b0b02e;
 0x12119f3b019cc3fc46ecc80893e86f510b1dd4030b2ce28c9dadcd1e71ad4891;
 0x42b6ffe687bc23a2bf6b73317286a543c60ed122fc225aae742c3a1c2dd3a1d].
(* poseidon_bn128_constants_opt.rs:2280-2301 *)
Definition bn_M4 : list (list Z) := [[0x236d13393ef85cc48a351dd786dd7a1de5e39942296127fd87947223ae5108ad;
 0x2a75a171563b807db525be259699ab28fe9bc7fb1f70943ff049bc970e841a0c;
 0x2070679e798782ef592a52ca9cef820d497ad2eecbaa7e42f366b3e521c4ed42;
 0x2f545e578202c9732488540e41f783b68ff0613fd79375f8ba8b3d30958e7677];
 [0x277686494f7644bbc4a9b194e10724eb967f1dc58718e59e3cedc821b2a7ae19;
 0x83abff5e10051f078e2827d092e1ae808b4dd3e15ccc3706f38ce4157b6770e;
 0x2e18c8570d20bf5df800739a53da75d906ece318cd224ab6b3a2be979e2d7eab;
 0x23810bf82877fc19bff7eefeae3faf4bb8104c32ba4cd701596a15623d01476e];
 [0x23db68784e3f0cc0b85618826a9b3505129c16479973b0a84a4529e66b09c62;
 0x1a5ad71bbbecd8a97dc49cfdbae303ad24d5c4741eab8b7568a9ff8253a1eb6f;
 0xfa86f0f27e4d3dd7f3367ce86f684f1f2e4386d3e5b9f38fa283c6aa723b608;
 0x14fcd5eb0be6d5beeafc4944034cf321c068ef930f10be2207ed58d2a34cdd6];
 [0x1d359d245f286c12d50d663bae733f978af08cdbd63017c57b3a75646ff382c1;
 0xd745fd00dd167fb86772133640f02ce945004a7bc2c59e8790f725c5d84f0af;
 0x3f3e6fab791f16628168e4b14dbaeb657035ee3da6b2ca83f0c2491e0b403eb;
 0xc15fc3a1d5733dd835eae0823e377f8ba4a8b627627cc2bb661c25d20fb52a]].
(* poseidon_bn128_constants_opt.rs:4402-4423 *)
Definition bn_P4 : list (list Z) := [[0x236d13393ef85cc48a351dd786dd7a1de5e39942296127fd87947223ae5108ad;
 0x2b257df708d2f3d6785ff39129c7f268c13aef87ee92e9096bd6bd8d2989a74;
 0x224a7cc70daf93a67ba74c0f2d80c5b0aea7ec1bb1f4e17ea21ff147c58b0a1b;
 0x18ce43c42faa57788e66b11b59c98363b6970c4fbe9206a0986ac7a4438b96c9];
 [0x277686494f7644bbc4a9b194e10724eb967f1dc58718e59e3cedc821b2a7ae19;
 0x27907df41fa277d8c74c3725e5b8be54f4b35d3d0b6e57b26ead3cde3d431897;
 0x1b7e85dfcfe013c45746d870fb2114991d43131fadbf80494c01d5b105d44a5e;
 0x2c1597f81dc951f0b27440567676ac64ea1b184e65eb25292cc4da61d8bf9824];
 [0x23db68784e3f0cc0b85618826a9b3505129c16479973b0a84a4529e66b09c62;
 0x2460a032cf84ecd1f57096c9d21f5d48d1b21abc6d70277d7a75946997aed17;
 0xc7a2ae4396db1838e5cb1ee490a768c1777efac919031924ab242d19be92806;
 0x8c2147f957a152ffc37eec7b1cb029c07ecfabcc84489502a6e052aa6f94288];
 [0x1d359d245f286c12d50d663bae733f978af08cdbd63017c57b3a75646ff382c1;
 0x2456b3c4841aabbcc4bcb4950dae4a0f8e60cf0511decb8b67afdabeca0dc590;
 0x1a2e45b92aba8f36f92110d68941ce37d39fe27d02b794d53f7b961b7ed377c5;
 0x182d95b63ec720b3af3a3bc6d0a6012d4885ba5754f32aa1f1d92ba130fe5745]].
(* poseidon_bn128_constants_opt.rs:6953-7344 *)
Definition bn_S4 : list Z := [0x236d13393ef85cc48a351dd786dd7a1de5e39942296127fd87947223ae5108ad;
 0x2ca7b911ea4f6a11da0bd5e72ab3cc621c5908b59ff3d76c609ea9c2fba8fa41;
 0x2de5f3a5bbe5b20d77ba6a6f8ffe2db01ff5000901b9ce0140df133385fd9506;
 0xa150cdbffe3c60c7a52cefa903bbee4d3846d24339f926c3655cdf9f81f67fb;
 0x2026ad7e03636deef47934dd0d5dd29d87056d172e993bf5e96d6a3bb32d2e9c;
 0x232507a3d48ca163c5e1b6f5bf391141524733d9cef80d404fdf78393c90151d;
 0x1b16b96e6aec89d326a5a6c18336ec3c56e7189f8c1fe74c5c46074b865a1d83;
 0x236d13393ef85cc48a351dd786dd7a1de5e39942296127fd87947223ae5108ad;
 0xfdf5d15426498ac82411ff8a7a3884894f02c5242eab1dd7fdfca1cfdabd35b;
 0x97cfa1218fe00b4edf8ce61cd20b4f8875ea5c8282d90f6f7153c9463bfbd95;
 0xfd1ebd67968d1e49926c3952aaf96d3558aa856acbfe48e5a9fdb4285ad9bda;
 0x27d5dc47f678316695d548d3b4fd1b00244a11d4cb753edd917d849cfa02fb8c;
 0x2602ddd7ea3a280860321a70aa806562a57bebfa5a0f5d2770f3a169b88ae244;
 0x2fafd30b7fac7a6699776892b07366b40fa387bc4141e009ee42070337088a89;
 0x236d13393ef85cc48a351dd786dd7a1de5e39942296127fd87947223ae5108ad;
 0x1b2ac2c9f97eb32560cee0b8e8320f52866b17042d2c7c13178dbd963936517;
 0xc6db19118e83768bce24e1556ab9d383adb0f4f2b63c3f540d5b5e4deebb1f4;
 0xf94cafc14403845ea574997bf75caba6b2016ee5a10de57ae35923c9c6a2261;
 0x9145c337938ac3f71b78022c80fcdce4c1742f47dd2190c31c3cc5a41980f5d;
 0xa0ca462d8ae218e235b6f24f4c17747886524aded7e4f3a59631497a4f98863;
 0x1851288ccce2bdece3a7f68ff33b00cb961e6292f2af29c775cdf6ce3fe0777b;
 0x236d13393ef85cc48a351dd786dd7a1de5e39942296127fd87947223ae5108ad;
 0x9ad33992db79124edac791c80e82876cf3a60a043edfcd7bfb5a93ee3feab08;
 0xb320d1000c50439a989886c4c11e711bd26667e61c50afba9d347cbd4b312f3;
 0x26123488a4f037ba7b2a51391f25f91642ae52bae1435dfe32c5f47ce63f68a5;
 0xd7a4403c3407d64ff5f63275add86c161183b2f1e88dab842607a8f3fcaa270;
 0x2cad68fb4be69ca135d9b37e2d3084557efa6423a9662f1fb24150b310c71727;
 0x2e122deb202b0e2c6a25e15226c09b9564cc57a8fc0d3645be77c36f8f27d4fd;
 0x236d13393ef85cc48a351dd786dd7a1de5e39942296127fd87947223ae5108ad;
 0x23e090845b17c18cc12ff83ce7deb2e58cff2f37771c39cd0b68ba14f4cd65ac;
 0x8b041b40e47ef1883a30a5e631cb1e0596543f5c240701002be9d495d59a775;
 0x19d0ad6176cd87e6109b92dff1b863104182e2c85bbaac5330b2b7a4b56f9a6e;
 0x11296e1ff67a98dff758d023ea74c5fabe372a797f86a621bac4bbcdf31878bd;
 0x1b0943c04cc4c3885335624a4df555ff89e439a40e6691d5db44732aea1b36ab;
 0xc2cb45703a55a050e57ca3e51bf386b2cba4d5dadeb1749f8a6e047c5e9ac1d;
 0x236d13393ef85cc48a351dd786dd7a1de5e39942296127fd87947223ae5108ad;
 0x20c061a0f70692748ab2f61b7e52e5ddd5e704e51de165eb19312700eef604a9;
 0x2aeb2df6a12c099b42c03dac1557681f03947ecd76426d6cb8a749dfb9f964f0;
 0x111fa84f899677752592a75d53083c3188d97a72d8aa1be3835b681bc6813270;
 0x1aad37ed6a2102cb892b98a7783fb019752cc8c0327190be544ad76165251f90;
 0x1be6d262a580b10956cd6163ef221f3d9b0dc3e5cbc7ab04b3f8f2a0ffe86be9;
 0x19fb44907e93686f59b9f17c0266c8139f8f4d8a5d212503bec1c6ef72409fca;
 0x236d13393ef85cc48a351dd786dd7a1de5e39942296127fd87947223ae5108ad;
 0xccbd07f12f007d8f30c6150e395dacffde4eae8fa51bf6bea1d6a7c421a586d;
 0x9a3428b0108143dc9c78633aa3bb37807bcd9603406be211bb286e42b58cb52;
 0x2a7ab6ca90a4e66f52e863c4b0f515148798ac8f92661b2b816902e915d8227c;
 0x179239cb6d96131ef12f09a58f9535b66b23c4367bcfab687e9a7c3c880a040f;
 0x7f9eff8cd62907b5d607140bd0b0944d175f17abe2b2eed814b6463ad29b8ce;
 0x2f44cd6674099eae8cee5c6f84e9b25cfd7c801e0b457278e83fe4b511458c8e;
 0x236d13393ef85cc48a351dd786dd7a1de5e39942296127fd87947223ae5108ad;
 0x241d4acb53e51cee878b7d23223fd33311ff0aae81f4faa07816546eb732d8d9;
 0x13016b694f63245a8a9b2f09a84bef7c0711bb8838b3ad49e0b7838f6f644560;
 0x240a3ff47c2e7332534647a5a2fe278aff069cc479fa000d7c31a78ce2929bd1;
 0x1a510b683ed295b19be81ace3dfbf7cf1061b07a18579325f7cd001d38146c30;
 0x20c4eceba419b0575a95e295d84e71bd1a928d5ccca5d79a809059de3342c9cf;
 0xbaf9899a51723a56cda43c1aecd6c096a499b57ae1893e16a28908bc5dcff6a;
 0x236d13393ef85cc48a351dd786dd7a1de5e39942296127fd87947223ae5108ad;
 0x162315c3b31a4d5b766510f46974ff89071424364fd69c9bfba1b6e0bece8eac;
 0x2f6a4f9489ad4e1439c806d757799fd6ee58ca5d0560d15a8f658c6eb86f47d6;
 0xf67999a01cf660e19180113f770041cc147a335e19f545e3f31a61bb6b4efa9;
 0x9146d7f035d379789456542d3d727b593a6fc67252a631ec407053635478fa0;
 0x2e44a6eb2efede0a5768d8491e4c86bfcd63b0ee2f383b74d62af311cf91de5a;
 0x160631bd9c54749181816c9aca5fe004260ee7a56fd35fb56977ef04911d5e71;
 0x236d13393ef85cc48a351dd786dd7a1de5e39942296127fd87947223ae5108ad;
 0x26f7f151e37cde405da94d5b7e897e9768862af285902b590b636e12bb43c7af;
 0xeeffd18325f8754d15db8adf98d290ac816cab0e4315306b2418068e78dd02f;
 0x284277b5d2b0fd66df351ff703419da6b1aea5ee405bba09bd4a369e6eaea49a;
 0x13584c5168cf2fc77f884d111e05fa8512e7cffec60dd3a105503196d682ca12;
 0x1ebd55190bbbaae0e9dd1af991eaf3ae13af0e71fa686312224c886c97e9e2f9;
 0x13a449ace196028aea035af0cd9d5b763d29f8d292443a762d8be06b1e136dfb;
 0x236d13393ef85cc48a351dd786dd7a1de5e39942296127fd87947223ae5108ad;
 0x21fa424cf90bf0b715656aeb3d02acc326cb56880bcd91602efacf66164bd07b;
 0x24694b5ba9200603bca8f52d73d0f3fea26c0ee1939d2cec8a9bc5f961cd68c7;
 0x1a6d98f744fca59c910dfb19ad89d7c25f2c719332edbbafb6cc85c190e4e170;
 0xab904b12244246c2dd95c69a28ab91d2c34e641f697b5361bd91d1625c937dc;
 0xfd87c8923668cce921af698cda67103c048864129954800460374ded5b86770;
 0x2098ce0512ca13bea1141e48f14bc691b410cf81de7f597d062465e1431c4c2a;
 0x236d13393ef85cc48a351dd786dd7a1de5e39942296127fd87947223ae5108ad;
 0x4d94ebda7313ce25cd0dfcd1dde7992439daae630c054d7cfd6d690a85c27e9;
 0xaf2fa274dd5b1e16568fc4613e76c9ab4fa99d09d10105e98bd9b92b82ea455;
 0x19153b7441c48cd270b491762e96e470858714e9650aac65169577d2fc755af4;
 0x2a5c69d030248d78f70674af65d92a908a7c27c34f32f9fd2417450e0585254b;
 0x436d86f139382ffb61085560e2592290518eced5230894b4a8bcdebe06a88fb;
 0x23b40e7f1bd0b7fae8cf2ea0608ace9299b903ac8d9994f7448bc2e46090af99;
 0x236d13393ef85cc48a351dd786dd7a1de5e39942296127fd87947223ae5108ad;
 0x21427832371fd1ce0efebe904a3ffae941142d4f35ce77e064e256ab5937653a;
 0x1b527a15f36d4f03015a6ff483cfb5c18f8b331a7caf79237998fb914dd46149;
 0x13d847e25b71d35789c6cde81ad9ad9c1afa6ace79ecf363920dc233e5646338;
 0x238b13365a6b8fcd6580ff9f4bf267b01366a41d7c326c826be7dfec751bd480;
 0x2fdc1ab225df187a8fdece2e14114cb71f01ed887085eed22731ded19882966b;
 0x2fc9fa00830e2671b36e8eeec5c369a6b3fc27bd96905b5fc220fcf0458d1c3e;
 0x236d13393ef85cc48a351dd786dd7a1de5e39942296127fd87947223ae5108ad;
 0x101b70dd04be642aa07377610e3ee7d630bdb12e3b26295806b92e9f482151cb;
 0x1227872231f192f1c81440c79fdebe597ce8ad03894cb07ac9b3423e4db90d10;
 0x1d01d734b7090603174951fe6d338fb3cccc00c0accf2ac8d45859f45166305c;
 0xe593e9c0177976f4caa991e54fc7eeae897fb723a9fad08a811b296f3e7b10e;
 0x2fe9b7637f54d7060ff768205f9e161a4cb3bd9dcf14a8bbcb37743b6fc60c16;
 0x26ac179b67db2c393739a450573022142905e5faa7e8efdd1c717eb603a6d9c2;
 0x236d13393ef85cc48a351dd786dd7a1de5e39942296127fd87947223ae5108ad;
 0x2e26f19972ff8bedefb7803e3284690f4fc7828cb0bcf3b5d5697b82714a171a;
 0x7f4790a30254f654fb0a465c42217421998843693e2c2320e58cdf31a77ceea;
 0x16adbd595b9959b8b903db7df15187e66b7f6fd433fd2ed3ca0dab8d45f8d031;
 0x1341399558f697e9e3b49e50ad3889a7a6ac1b7a169ffe1575a3172a4f33c75a;
 0x2c8e714ec99e38714e1d01b984f863c0d8e05b8c3b7ff6fbca20caacfbf3bf4;
 0xaeb4122ca96285c5eb5b52fe2c26355db417406c567aa6c35dec7fc58ba6176;
 0x236d13393ef85cc48a351dd786dd7a1de5e39942296127fd87947223ae5108ad;
 0x24f5e61cac001b78c4664cdc75cd8d75bde602e45c6dac698f3b28ded5a75604;
 0x158dab8b85f4412fdaefdee4d4f1fecb22f433672964d2ee7730b03663361f1d;
 0x210a7fd894e483be032c8e6876957968f2152a9f1eded11c3cd26539ab12a213;
 0x27dd83e178817fe22e022c22e620afb88e02fb15346322b8f70bb26485b813ed;
 0x28b60c3bcdd4693b01f111dab969ee5dfa4a8840defdbf2bbf38604ce4e23e70;
 0x5c56f683ea2d1d507676f03c411a29c9925215ca5d8e7f28a3da73cd7b513de;
 0x236d13393ef85cc48a351dd786dd7a1de5e39942296127fd87947223ae5108ad;
 0x1ef913d33b18f5ca1d000c2209646780c4580869163f287c4fbe537e270c308b;
 0x2f77767437b926272dcdeecd45416aaa588551a79bfeb15fc3c76d938d12afcb;
 0x2da62c50f92d8dcc0f6fdd909051708b0c8f21f966ad57ba303370f00209ed21;
 0x118c1924b687d5268424af23862f95eb629e1c699a7c27de27c581c495ef159f;
 0x1c20f20b601f89d66abc8e1854d3f29489de9a559584b9df842fb988980133c4;
 0x19078ba50370eef76a00f6c89217183bba9da58fe15d8a07c565caa019147772;
 0x236d13393ef85cc48a351dd786dd7a1de5e39942296127fd87947223ae5108ad;
 0x90d697c32be00d8b71f734d1f9023cdd11a587b51581e763bac5b3c766c5043;
 0x28309a912afc86848b67f7d85be9603f34ddceac4385e702f3662b3c2bdcf9e5;
 0xb100f36ac254ea63a6b92996445318f7053603e181261d07051400f302dc3bc;
 0x1931597f6dfad68193199a2166736c0c7e874189ca4d4d2555ef9d964b06c93e;
 0xb26976995fcdb354ec5c6c50e1b29139fc3c0a64709cbfc2fa992effa833800;
 0x2dd919c2edc302e56e0ece7b8537905feaa8c6dfa6c6130f94d68f7380bca019;
 0x236d13393ef85cc48a351dd786dd7a1de5e39942296127fd87947223ae5108ad;
 0x278b0231cff85bdeee497f6274fda5e07cefaac1ab05ce89f863db3fce5eeb29;
 0x9ee1dcae79dc90e4cf0d0fb5e6bdee96fa6b751adde822d30e3a80b1a5bb506;
 0x1769f50fb961ba50df8b9e03a12fc37bc965265fce93f9762b274328fd04afbd;
 0x20a99da43235a2bb30b0ef58d708d07740510f517b2eedb678a94aaa4edbdeee;
 0x11b7181ec0f9a1485d84cd91c342f70e1924c7a85f48a33e7bf8b5dba2b8b7a9;
 0x23453eb1a5e44e28b31107f29dc6a7bf4818a7ce156d2c7e81dff75cc02e937a;
 0x236d13393ef85cc48a351dd786dd7a1de5e39942296127fd87947223ae5108ad;
 0x2abc91241e3275e2028d68130f5533d6c8e3d1ec2942632fa4b91a49fc762880;
 0x21653a887bf627cba0b5a35ebb3329f4602afd8440ada0050c31b249d962f86e;
 0x2ffee525440cb92eafc518b16135ca00df2ccd813bf1f9bc458252d7ee478def;
 0x104bce734fb0322de9a91058ffb340e35c212a8af5c5b6ce1817344d82137d5;
 0x12db34f34145195e64455a298fe597ce8b757426784cc53975ed5a439b91c12a;
 0x13a9a61ca0008c1b911748f5593bbeaf633308428e4e85378214be04aef88b1c;
 0x236d13393ef85cc48a351dd786dd7a1de5e39942296127fd87947223ae5108ad;
 0x14ade7cef88a7726d51eb001357d8bfce8d1d8ec79472f6f2531d94792d4707a;
 0x24baee921a2b827fe96835346b85a3e94ab75b4eb9fcab4235cb9c54d0a077a6;
 0x4dfb441b179922b9e2ca9458de6d3aa0c653beca2fa7317a5d1fc4138e8782b;
 0x2efdb84c3c6faceb0f58fefdefc09e447ea2302291d3ab11101d487f3c679ee4;
 0x24d861650389f03a0da9d720f25df6e7ab3796ab597ed63d38055431655bbba5;
 0x1f8b2609f6999f6b15577697e90e891fc7b691c30c2695278042c2d152aac2ae;
 0x236d13393ef85cc48a351dd786dd7a1de5e39942296127fd87947223ae5108ad;
 0x242fed5519f01070752e2e3779757e5df21033baaab86a9fbdb1a54d11cd4db6;
 0x6dff8e392f51302fd8864de5068b943a2b04fb0b239c38b679faf689d69e1a9;
 0x1ce5db5cd27794bbda0f7215bd9404f46502d2b601f74fcf2cb1a5b7fd440fbc;
 0x16aea838ec8bc6e8b8f48309cd6e783cb4a337b92728f66f701f0d5efb32a80a;
 0x1fd21a8ff13f0ef12be5a125bfbd5e952ef1e46b4f3747f3fbd8198209d4ea95;
 0x125158b21d677618076854954d977c35a6313a1f37564e36bf6d072d2500df6;
 0x236d13393ef85cc48a351dd786dd7a1de5e39942296127fd87947223ae5108ad;
 0x2bb8e29cb323e3e2879d93d36e9312bb3c38a922cc6bcc1689f72793f5d4a18e;
 0xd0e2ecbd08e247ae7aff1bce2bc54ad1603fc2cf0ef32822701feeebf4e826a;
 0x2e7df0f7b842490b3f39d0d87bbb35a90cf23f3cfeef3c8a4fe4716a47699470;
 0x1d9dd609a2944aa782ecb1a08acb5c0bb857c7489920644f6839c93c10b37837;
 0x11ad269471d4b36fb23aa243904a0290608c32759020f082cda8b4d538752109;
 0x2d2f546cbe60a9822e205c3f3fd187bf89f6def774c3f988de86e4eb91595bea;
 0x236d13393ef85cc48a351dd786dd7a1de5e39942296127fd87947223ae5108ad;
 0x28113fd3a8d3b95ebcf29f2ddb54c6d9ea034a51e3bd1198e4c1f4f1dcf068d0;
 0x114ed46d49b389b14c202ba1c069ed4d836c131dcec2472f4bb78f803b90025b;
 0x14a217bf8737fb3570e38b75cbc97b316ba21db8a3f316aca5a26ed35c0d1424;
 0x16c9e7a58ddf141978209561d930058233b8adbb9e3aec9702ff674c22b009d0;
 0x1388b78b9ec0242e402906d75be419cf92e3dbc2a5152df9797318e004632793;
 0x2a459318d3f7156d87e3c666a8f7626cfed0d30fca28ef7927513b1f7a294b07;
 0x236d13393ef85cc48a351dd786dd7a1de5e39942296127fd87947223ae5108ad;
 0x1f3df3ca1c4b854792a69d107bb7e6e7be2f479be397de83c94cb310e8e821cb;
 0x2869447a669cafc20f1f9017028e3098b38a82fdf3cee59d9de2c888004b41e9;
 0x25eccbdcaf0a67d5ef15c7baaef8bd2a4eaa1a6d5d70385ed777c10db4796ff7;
 0x24c26970e999f27e6351f1be0a3211c0a177cdb778ead13baea9b7b4be3534a5;
 0x731afc922ad48a9f0ce9d635e26ba013a7d4ae8d52d4fb75f0f02409d83433b;
 0x217044abaa3c9ab6c51927ad1061d0c1cedc63a90b01b7b5f1c10974e66f879d;
 0x236d13393ef85cc48a351dd786dd7a1de5e39942296127fd87947223ae5108ad;
 0x26cfa9ff210943f6b07c08691c2eddb1bb1d2167a417912ece724706b5c20b0e;
 0xa5509b4fa5bc8be630a2ca7c40980904713b196e36a7e9f839c4474037e049c;
 0x1c4dc788b6131f9dd132c2edffc7a46ec50b000383faff5419392f0d291c3475;
 0x150bdab59767a62d994ce37edf2c3cd5311abd0bfe541fb30968e19ee2601053;
 0x25393627a593730f4cf25a068932d447c1581f251f9a7b7d86cf9e392aca0d31;
 0x10598af7a84cfdb4c458ca7625dd8b18509491e7109db65bd8a0f80d8778a6ae;
 0x236d13393ef85cc48a351dd786dd7a1de5e39942296127fd87947223ae5108ad;
 0x1fd5ba5922d7109795d5dba77bfb57ba6aef1bb6aef0baec38d0f916d35ec9d0;
 0x439026e268ca0fa85b1f6ded27c854552eed2629ddb59e6a679d4efaea6f218;
 0x1d5d47eb657ce510b9f9a17e9a49d6f0040f7f360399dab7f053faba3f06286e;
 0x5cf07dcd831c1c51062ea271b402941996f46dd9df0fbb227305a550f42697;
 0x24ef1615afe18b0ff998bf9e1fc69fedf38db66b2257f4bac76adc04ce92e029;
 0xce1da26cb97828162425a7236c23e8f4b7778bda9d7d514b1b8fc9328087c2c;
 0x236d13393ef85cc48a351dd786dd7a1de5e39942296127fd87947223ae5108ad;
 0x1355e415b0db4001ca01503bc20232a49e67f0e816dc90ff18a4280437e9e9b8;
 0x11fc9669cbe3bf176da65f312e409d635dbee3fbf8f3d1d6b056b48473cb451;
 0x1d6c1910236789557b4c42df0191d2a46cddd2838ec6a74b7c308f023e71d4c5;
 0x1626f4d2cc7f2d46d7c9c97030c1b420d6c2d55033f7becea7d377541b19f57f;
 0x210c4bb43d712b400d4bae4bf8dde436786fc88bfcb82570b3e235ddc2982115;
 0x213fd23b04ea9e58ea915c1fdb460f3a0ac4b0041afe80f6ca1ba9e1a0e13825;
 0x236d13393ef85cc48a351dd786dd7a1de5e39942296127fd87947223ae5108ad;
 0x2ea430efe8ee1f2c72ac009258a1ad98b87725c00f72d27a31c445046bb9a80e;
 0x2d694e23e1b3f6b632b646584e76fb7b0d35aeda598fa5069d73c75136bd0272;
 0x2ed754f34a22fe04fbb3635776e0894d21cdbf4cc6e03b8bf33787883c1a0db0;
 0xf23e64e2b59d750be3bd037f4df62f7fbf16899400e69554b893f4afeaa41ae;
 0x1cd301878d6d778480ef82b2a3cb9bcc36362d198e44c204e490cc524a2bb2b0;
 0x276d797b67c8b3d935a71d2f8342bf7cbbd68de537e32c466f95a01a5a207f04;
 0x236d13393ef85cc48a351dd786dd7a1de5e39942296127fd87947223ae5108ad;
 0x16e8ab5ced34e81dfe00c24c7fbd0f4188351be2b1b26b6d63a1e02b84aea6b;
 0x1caf3b10ac5814656ec2d5852b5439f810c8dc0a4fd6ebe82d9f33134f60c7a7;
 0x225f97bdaeb6a565372c547e9d6c354c1f78fa1998cc3d92c28212ec7edb634e;
 0x2d828acba9e58e0f3adf239a3689449515a1ba244c13b0186c827d600b7a7358;
 0x1f9da4066a62e0cf290cb839bf62c9a49cf79b0ea1affe03696062ab8cb9d39b;
 0x240706e2b81b5b65343b41e59330666d2b405258c4b9b177495776c2b1b6816c;
 0x236d13393ef85cc48a351dd786dd7a1de5e39942296127fd87947223ae5108ad;
 0x2d0f43029750f58be22d66c5b2963ac6b15b18c6e9d009b717044859fef9618d;
 0x14237392b60352f6c8aa0f5c08024beb882ab82dbd3e790cda3898886aa3e9bb;
 0xc8f3b03657beee6e1f94c98662b6339cfb7db5cb431fb9813587ee3f194d260;
 0x18700b515de19b3256513482566afcbf490e55633dc0ba574c2fb4efad1ef118;
 0x1c3b0a6645d002a9d1e18721a96d1e8b00217bdbea74ff1340dca47e6a326e26;
 0x2979c4d21f80db612fa98aa90bbd65e2cecc1ea431849612005a904c08bfd014;
 0x236d13393ef85cc48a351dd786dd7a1de5e39942296127fd87947223ae5108ad;
 0x24509dfe357470309be062b07c05dd3df57d7cca62caa26001991820ce3af97f;
 0x2bedda6eaf8901b78a0e53e25dacd92c60673046c86deb333ce4798bcf9357e2;
 0x1f1d984e06825a3da53ac4066d4910067f6e0ff13ef83152cce3977ccb273404;
 0x1f592946ac103f244d168802c352a7e2dc52bd2e53d3ef2f4a7571af810609e;
 0x1a975c6688744220ac1e3d5295126f8ee0db7ca6283a176585e8dd5bce060ff9;
 0x1a78319fb62d99297737e9dfdccd57fe6ffe0329195b8ff713a2d6d33596a6f6;
 0x236d13393ef85cc48a351dd786dd7a1de5e39942296127fd87947223ae5108ad;
 0x2fb4c2f41520052bd4498be87f445b3c62e86ca7d872dae8fa99c67b5977d11;
 0x3162b367e9f34180f2228d505e54dbb7f2f23a3a8fee14f3084aea490fbf3fa;
 0xda5cb94995f668763e7c6ecf96dc6bc13943abf3e49c55a702d37f36f79114e;
 0x2575cdf1a61befe9fb7b83e880e8cc23d82600f35598ea2f81ad1bec1bd701b9;
 0x1f83d6c20646a7e089a8fd0ad274021af2fb24e315f400dcb3d26a99ab5a35ae;
 0x2c774cf487f79664580219c9d698781249e47b432767b0cbaf5169a5079fdb42;
 0x236d13393ef85cc48a351dd786dd7a1de5e39942296127fd87947223ae5108ad;
 0x203c1b59256ff5c004e70c2c5125ed51cc53e99390a8de9018e647e1be8d9888;
 0x27abfb2e0894c5b4279b39b9319fa54ccbabd1efc509b31d906a1b5f764963c1;
 0x2fea2fd0f35fffa4f84894b6525b3fec299c821a4766a78c829c2e7e69efbf0b;
 0x2451d54dc48cb608f2e96698b96fd545816fef09dcaea75c9928179373a66fba;
 0x17c5d4cbf713d33eb7c1f915dd2b0e439bebc5510cb409594adb43f94b7a0e9a;
 0x279fbf4382e4b2bc46c1a8f719063ddb4226bb09c10cd68008b37c7f32d469c;
 0x236d13393ef85cc48a351dd786dd7a1de5e39942296127fd87947223ae5108ad;
 0xeb7c1194600e6ced3d8dc88c8689704d4188dfe89970dd790bb9cb600652321;
 0xa0e776c12cd108cc589b14e8493dc743d85046b1c4ca97715ec501fcb166ba3;
 0x1a8a8487cb8a60bce5774f64f62d0bcee791dc32d3a6f872f7dc626e4a732948;
 0x16f103fdba708db2bce8b58c467a05bb8878939c82852921e94e5e955aa09ca0;
 0x27a57324ff8193272833550d82f749d1389b493f98c8d3473f1a98900376325b;
 0x26e4040378441fe8a60d1a5319aab70076c82cc203530d82e758844070c04860;
 0x236d13393ef85cc48a351dd786dd7a1de5e39942296127fd87947223ae5108ad;
 0x71846aa99eae694fa17d73eae87534f09c4539fa5c3b79ea6bc56d888dfa9c1;
 0xcf75a0326b8ca3e2ad571834bc835c083555587a928fef417730656217faa2e;
 0x1b80702e894d74821bfef8a2dae36f71d4802940f63a14fe64b3081340c4f11b;
 0x2cc49fb1ce9198b927ab098ec9f454d205342ab49677037f9ff7f08e3f07ce71;
 0x1a6e74bef4b0a5b3566facbf770a14bad98d8b6feab3e45995a328135888e924;
 0x2ef1e0f0bbff91312b2c9b4710ca04f4e978061ba53657e9bc1893bdb2e7c7c9;
 0x236d13393ef85cc48a351dd786dd7a1de5e39942296127fd87947223ae5108ad;
 0xbb77a79511909681081da11a13c7abf3107373ba413ecba4d47ee5a0c288fac;
 0x23d8b2e6869d7d05101d387c1b8cde6b85b7fe860e7eed2944c50d099053bfa5;
 0x3023a8bf03a803eda3830c500d1c0e061fa85c4c15b72459475e3de290616ae9;
 0x2b27c41a943be0d396ed3630098ff7018767161fc1a24d25f47969f1a44e20eb;
 0x2a73bceed9ee2a7261290c8590e2ff679582a3a6c5988254ddf6f108f1103e13;
 0x2579c47b76db59c6206ef023b59884fae08ef6a697acf7e55b6f132fd7733bc2;
 0x236d13393ef85cc48a351dd786dd7a1de5e39942296127fd87947223ae5108ad;
 0x2a5993c9c2a80be0f4b0a6f9c432e2c0604cf59d5bf5bf24609572d7d0acb900;
 0x10faea103aa36e7d5c7bf760b355e0fd381a393feca3c04450d7faf0f6a22804;
 0x2e98e92bc9904ca92c3e6d68fdd79e8bef6123ad5174f01d5dc04a240d8f47f1;
 0x119937bb5d5d9029f290239eb94fe86069f2db6bcedcda8a1028e0b7a434428;
 0x7c67a48f20850fc8ec8c735b73e07af2a08f52e7bc90084e9609e97f070cf2;
 0x2da7855de0bdab6e993fdc9ece5fadf00c5d39d58f6599a56438aa2663cc35ee;
 0x236d13393ef85cc48a351dd786dd7a1de5e39942296127fd87947223ae5108ad;
 0x1a69a3840762376c3a2aec1bd8a434f2a5e410a7e92d23dbbb20a0991aadc46b;
 0x57e27ad9218a311c3627a25345c879508fb856d68b9c0aca90276b1dfa4bf15;
 0x14307851c6b079c4f3b26689dc5f62b8ac2b69ccf33f3802e9ada26718881832;
 0x26c71cfb532662f6e681dd310fe112703b78f8ce1e3c39183d5d4889ce304271;
 0x294cb0c139a1a5a345bc094d8a53f21d90e82cf47bb87e3d5e5bbd761e6d82aa;
 0x84133bb35d1cee7f10a2f61953a4c77e09c4661a5565646654ddb7fec0be900;
 0x236d13393ef85cc48a351dd786dd7a1de5e39942296127fd87947223ae5108ad;
 0x1807d1d910cf5420087bc575b795cf7b77b590b7d14d3e3d2298b302c875bc1a;
 0x1df001fd3c1262358bfa1198116229dc12e112bcd91b4f3962c8136c02c57e9a;
 0x2b424b88ddb0ae2ff74d14a89099f8942df4e737c63f61f695ecea4842f9ff07;
 0x189b086bfbbb9da30885f11ff9cb213c0a353710153cadd96203c7f97203791a;
 0x1bd472ab81eb7d6c92809c07a387b1dad43a3083fe658bc88d1c3ac1672e2ec9;
 0x2bcb32de32d02f4b8f8b1d100459f537cb0e4e1f14cfe5724424107a9929bf8f;
 0x236d13393ef85cc48a351dd786dd7a1de5e39942296127fd87947223ae5108ad;
 0xcfc7baed4497a2252d54cdeaf8ce6f23773209abb5f341ca2ab616f0516195e;
 0x1cbfb6629ded2640c886dd504a2ec58f96b441839b79e54feab04260eb90b128;
 0xb3e19811df2edf55549ac304fb205cdae326abff1e7febd20f350af8752f2b;
 0x17e85c4c6fe808534124bb66995e5c663eb5a195ac1a26d8a096db675ca0dfcf;
 0x31cdebefacdf2b2dc708ff87cee0315f36e97308369e304e8d2654c342622dd;
 0x17c33efac12fd569e1ff7c0a0165c4cb8d23c279d442e7bbd073cadbe4f665b2;
 0x236d13393ef85cc48a351dd786dd7a1de5e39942296127fd87947223ae5108ad;
 0x866a0d2140ed3854d5822fba68985764126345cdafbf547ebd33c39aecb895c;
 0x2bbd1e9f3114413c347ee4037d08f914d4cb655617c0cfaab77bb09ced39950;
 0x1ad0d5f7480a78dd4e048c459479d5622ed65f87880f675cbd2c4d97e7bc7847;
 0x1b88066e99b993f70306cde87ea47cab3efa6d698c9d3b1ba355b2c9f3453b74;
 0x25fa0cd0dea157ff4ed741b0dc76e0095a51fc30c799500e80d0b821aad7b9f1;
 0x208e0d0378f2c7d87a6ce8abcbd4bdd979a4d9dc80268cb96d84ad440fd0f99a;
 0x236d13393ef85cc48a351dd786dd7a1de5e39942296127fd87947223ae5108ad;
 0xbcb27a9e590ba76102f8bfa6f1c64726558f57a0027e6ddbc46d564eb8b09da;
 0xce91923c51960849a75b3f8fd1bfe1d9754dc7cd48144f964a0c91a4e08dd61;
 0x1fac92c295c763fe6b1e3c0f3604f0c7d618def2133ee2f869d2a1e774b4245d;
 0x87968a25cdbb96cd471e88fc2cccbf3e5b8bd1037b4ee5332adac070a82a109;
 0xcc8d9f53ff98eedd6fdd5c5def364a45d12ace1ff5e3626f760773b5de0e624;
 0x2b95310fe6307070e985d61390a351ca5e1c4a9f5e2c539602136fcd080f4e6a;
 0x236d13393ef85cc48a351dd786dd7a1de5e39942296127fd87947223ae5108ad;
 0x28c0a6ccd9587d41eb73206239493c9150e52258eefa598382cf609d4559b2e8;
 0x165c6c313faa07be77275b235bcccbf30af0740ca973d6acce2cafa9462491d9;
 0xcdeb047d8e50b00253e926dff5f95b4279be0377669908d6759612cb73259e6;
 0x10140d5f85f2f329572c2c9b7535776b7695d62d6362ef27285485abbf9db018;
 0x9501340c196da04db07c8b1c3bc1461c228e926c9ee26f5e26364dd894b1468;
 0xf607855b7f42530fc19f6431d53035a74eb03f7251d71567982458698c93ac0;
 0x236d13393ef85cc48a351dd786dd7a1de5e39942296127fd87947223ae5108ad;
 0x255be79d8de4168c44cf8a26522391ec6b67e30f2474bf2cc7c792dd25a47046;
 0x1ecb792391cc746710b586800234267adcd4d9841c4e8f1e76dfc5dd15eaec90;
 0x292470307f3a20d0205a19091cb044a8f9e58d0156f0364b21f3b6025b65d016;
 0xc3d7b0383d1377489843e884a06ba72245f0498e71043af2acda8353a47ecee;
 0xc610cb1971aaa4ae5f87fb14ed536198648cdc876c7c6e2f531d7d5d1ad625c;
 0x1c237dcaf124be157c5897960fe7f22af44d441d2d4590028a07bb249711d7e2;
 0x236d13393ef85cc48a351dd786dd7a1de5e39942296127fd87947223ae5108ad;
 0x2a5e583e4003e7e747a1d39ad6027a9f347c7de946a3cfd00750a9a102c05e3b;
 0x16ccec4b4960d2331a960804ecdb0442ecb1bcddb9bab42b306c4736510675e9;
 0x2d0db3092b03a54bdb861c291c1a1f522112f9e457e3a51d731851dd59b1365f;
 0x16f1469935ef074ab1ae192294dd62af3e14ae22f1e294032222c5ae19e2adbd;
 0x67c4106d011aaf52f2539ba2f8d1fe65ce9ae081858ad629b9ebe8148cc0878;
 0x12c6eaadcc69ac3b7344b8296ea4a251facc1c96356c84e8131b662f3d5f34a3;
 0x236d13393ef85cc48a351dd786dd7a1de5e39942296127fd87947223ae5108ad;
 0x2ad9831069e1f113495cdaaaf18733aa4a4eae1e850d58c06665a1c787ed6049;
 0x1a6d2b5f928d9f0a9c4022b9520d707e5eca0ac9cee84927a71737a036628f6c;
 0x1d92d368ae1f42256bfe712909a03c69a46bcd207c17461986a6de00e0952945;
 0x10ad1d35f6f8f499e64daef032a28251b50c622a28429d2b2107ab377784faaf;
 0x150225afc95fcb450fa9b2b7723479ecf7c3143eda0eaa257df4f1a798cf6375;
 0x13c542f46f245c790955fd30c8cfe7125534ebcf6df7b1d9bedbe7205eddb980;
 0x236d13393ef85cc48a351dd786dd7a1de5e39942296127fd87947223ae5108ad;
 0x2fea3116266bd3005b05649b48c70089e572a077ed0f8f9730b63cbb9134a368;
 0x1bc4f0df44852b392b2a36846030f42fcd462c40b04d0c90e71129e621842af6;
 0x83b244ee2ab819a95d0c4bcdb9d915dabb6832b4dff9bde7ce0515827d19cfb;
 0x1fe91590b6942e9c496a9c696c067b3086fd707b01290a7711d4f398908c8917;
 0x2e97a6382c9007fb2b6ac74186070eda269b10506e8e4a74ba82274d154268c0;
 0x19d731e981d3dd374362f4b4f05c5ee9600b5396567615c3ee94e0a80c8cc4ac;
 0x236d13393ef85cc48a351dd786dd7a1de5e39942296127fd87947223ae5108ad;
 0x1299ec83503dcd0c6aaece92e6c2cf7871b61e43318dc82a183a5039044fd000;
 0x27059db058fd253b71b341d077246299734497dc31f2159918c64a78188b85e1;
 0xf8c2dee7cdc8dc90eb57f025076157a181973f6347318feeb0c99afeae085d0;
 0x1053d862218c7ad87cda3105ac23bcb12c92e883006c3d44fa3f9166e827cfd6;
 0x1442ee0343b9bc2ae95f8c4f59cb32bb461a4c7b40a12e89b68b6990a4b71933;
 0x2ef147fa908e6186fc2ed54fadf20555ef2a1e9b3babcb6863879adf84a3472b;
 0x236d13393ef85cc48a351dd786dd7a1de5e39942296127fd87947223ae5108ad;
 0x297d7f9fc303a0f583f992f7347f68b50b5bbd791acb93e2d8bc8efdc4c1ab53;
 0x2b4e8b40ce6c64abc1c906a956e5aaf5ebbdb7c98110e171adac573b81b16195;
 0x316fe041d68e38cbaa5d728d225ed818f00b2aa9ffb1ad3d9ec24bcdfccdcbc;
 0x168c57b725731fe3159d73e0d94c0ebf35171e3cf88e1267c2b556a5456ae6c1;
 0x90666d655622b3757b5ae5283432b4aeaece83148a36eb57821d241b3efbd3e;
 0x2c91164e87fcb1bd07143870286eca8a29df3678768bae50817569f48bd7bdf;
 0x236d13393ef85cc48a351dd786dd7a1de5e39942296127fd87947223ae5108ad;
 0x110f901d246c2e951c579bbe91467a2950e69ecf241d8b68c4a4c98f05284b26;
 0x484e7feefee9a459b2861009d6007e8b15721afb4a35f3e5c9a6f1f70334091;
 0x11300deae6b73e9e5129595f0996c10ce002506c2c207bf672676a130aba8364;
 0xec4bcec59f43f5b5653a3cb0440d71118ce31bb60c75b9c6766b6a5e0524968;
 0xefa65a66b38b03467fe38d8669207d9fbb9f38faaf70d13a67c6bf71e1e71e6;
 0x27806883684a018d11ee2ecabb971dd9f690cc5a22ffe36ce61f17c6ea5fb4a8;
 0x236d13393ef85cc48a351dd786dd7a1de5e39942296127fd87947223ae5108ad;
 0xf4b7f229e28a7a9e7bf019b18ce7a36280fff22f7a99e60bd84d1baa891cd12;
 0x20b53ef54ebd25d7c222d418e017b7cc5e00a9ae5221191a1ff561b1ee3177b8;
 0x14efc55a08da5f53635520e21890e2e5eaf0cc1fa1fddcacf1302dc65ee059c2;
 0x1b701800b22e5765059fc4525bb4aacfac8dedf2ed37253160baa818678ef374;
 0x118648d759ffd92fb5bcb86acfdfc4bceddadd6fb1679c317cbbcf686651c67f;
 0x2601544a6e67f78415a0c2a6e8f4665f5910909c58bb2eb03f7854519af15f0;
 0x236d13393ef85cc48a351dd786dd7a1de5e39942296127fd87947223ae5108ad;
 0x1bfdb6da2db944b4b79fc0ef825d6ca2acd350cbb87ff12187db30a1798d0dcf;
 0x969ce62c18f96eb6c6e3d0c5a7bc7b2b1de0cb7ae0474b47d16445f2d067cbb;
 0x13d54abe37dccf2eede120eeaabc5105b997f3647874179cfebc1c9b022b8215;
 0x27b42d0a347af048017cd6e2a577e959c0b6b6b8c2ae405cd9b05b793a2643b3;
 0x2737758ec335fcb4498d54d210c11bce1d2cf1b97b7ebb835c4bd17b1cf8d54f;
 0x1f9696df0bb5e293dc20d0579dba1866adef8f6e6d3846f42380861f5b54ca46;
 0x236d13393ef85cc48a351dd786dd7a1de5e39942296127fd87947223ae5108ad;
 0x2fa9dd289eab48f0424a48c9a2b4f51d2de3ae6cf2d5e23a10b0366938541d65;
 0xfc755141d556a5eebf1efccbcbbf72ead5eecb5ad93e9814b715c4d388d7709;
 0x26127072286989c57c665090b20dc85c5fa983ae80c412fb2d8ad02194843981;
 0x229663addd9b99e225513a7d0ed1b43c0b02de97a57466355e670add9ad636b3;
 0x3011613dbd895a56a9dc81ca4f61a03f4e77c18834c6c20a51be01d4ef9062d2;
 0x5598cd7707b28488e2a0d669ac14e8464804e51537d7d3baa45a7c80e489c5b;
 0x236d13393ef85cc48a351dd786dd7a1de5e39942296127fd87947223ae5108ad;
 0x16dc1f58a2e54f8f78d4a2bc67c5dd242744ff2db0ea9533a9fb3de2afa831e5;
 0x2a274cc1ef7dd9e160541523dd6b2c159fcb0f40191b63a8d0a877777b8dd060;
 0x1e8f3078f2fd0b0409460ab369a100d5a82cd93b3dd947644aa6bb8fc2f4f863;
 0x2ee81ae8b9bc0eb7d4417e09a83dd467ca8dcb6e8f0c8758b9cba555123dac67;
 0x367cb4b603a227e6b02ba57173fe7391e93db6078be2d56ef2e9164b6fd2721;
 0x184637a267f328df1bd119191fe0d1158eab799713ea537f01bebfa4fbb640f3;
 0x236d13393ef85cc48a351dd786dd7a1de5e39942296127fd87947223ae5108ad;
 0x27649a3a1db5ba83511b2f9fb3785dbdf083f1f5d4bed38b76fd379545d9ca08;
 0x8f84f219781937a7bd7ed5aecdffbcad92a1d31262fe51761c94a0f19973283;
 0x14f65d95f7359b8f9f3527527ba9722197df3e698f773cf3027c00bc4160f989;
 0x2a75a171563b807db525be259699ab28fe9bc7fb1f70943ff049bc970e841a0c;
 0x2070679e798782ef592a52ca9cef820d497ad2eecbaa7e42f366b3e521c4ed42;
 0x2f545e578202c9732488540e41f783b68ff0613fd79375f8ba8b3d30958e7677].
(* poseidon_bn128_constants.rs:589-928 *)
Definition bn_c5 : list Z := [0xeb544fee2815dda7f53e29ccac98ed7d889bb4ebd47c3864f3c2bd81a6da891;
 0x554d736315b8662f02fdba7dd737fbca197aeb12ea64713ba733f28475128cb;
 0x2f83b9df259b2b68bcd748056307c37754907df0c0fb0035f5087c58d5e8c2d4;
 0x2ca70e2e8d7f39a12447ac83052451b461f15f8b41a75ef31915208f5aba9683;
 0x1cb5f9319be6a45e91b04d7222271c94994196f12ed22c5d4ec719cb83ecfea9;
 0x2eb4f99c69f966ebf8a42192de7ff61621c7bb47b93750c2b9ea08d18446c122;
 0x224a28e5a35385a7c5198169e405d9ea0fc7da8b93ee13b6d5f7d099e299520e;
 0xf7411b465e600eed8afdd6afca49c3036f33ecbd9a0f97823796b993bbd82f7;
 0xf9d0d5aad2c9555a2be7150392d8d9819b208ae3370f99a0626f9ff5d90e4e3;
 0x1e9a96dc8292bb596f52a59538d329229732b25259cf744b6a12d30702d6fba0;
 0x8780514ccd90380887d578c45555e593cfe52eab4b945c6c2cd4d528fb3fe3c;
 0x272498fced686c7ac8149fa3f73ef8c2ced64717e3556d5a59f119d629ccb5fc;
 0x1ef8f9dd7c93aac4b7cb80930bd06eb45bd350aff585f10e3d0ef8a782ef7df;
 0x45b9f59b6595e614dc08f222b469b138e886e64bf3c40aa97ea0ae754934d30;
 0xac1e91c57d9da919fd6f59d2a40ff8ea3e41e24e247a387adf2584295d61c66;
 0x28a1621a94054b0c7f9a421353cd89d0fd67061aee99979d12e68f04e62d134;
 0x26b41802c071ea4c9632647ed059236e50c19c3fb3c96d09d02aae2a0dcd9dbc;
 0x2fb5dda8072bb72cbaac2f63e468215e05c9de06758db6a94af34384aedb462b;
 0x2212d3a0f5fccaf244ff3547fd823249ad8ab8ba2a18d383dd05c56ee894d850;
 0x1b041ad5b2f0684258e4dfaeea09be56a3276fdb19f44c015cd0c7eed465e2e3;
 0xa01776bb22f4b6b8eccff33e76fded3144fb7e3ac14e846a91e64afb1500eff;
 0x2b7b5674aaecc3cbf34d3f275066d549a4f33ae8c15cf827f7936440810ace43;
 0x29d299b80cd4489e4cf75779ed54b48c60b042257b78fc004c1b803381a3bdfd;
 0x1c46831d9a74529357641c219d721a74a427110032b5e1dd19dde30424be401e;
 0x6d7626c953ccb72f37141dc34d578e036296c0657674f80739ae1d883e91269;
 0x28ffddc86f18c136c54002748e0c410edc5c440a3022cd960f108c71cda2930c;
 0x2e67f7ee5e4aa295f85deed09e400b17be67f1b7ed2ab6adb8ec0619f6fbc5e9;
 0x26ce38fa636c90630e97f25114a79a2dca56859ef759e53ce7abf22c24e80f27;
 0x2e6e07c3c95bf7c34dd7a01d00a7ffec42cb3d16a1f72721afacb4c4cfd35db1;
 0x2aa74f7597f0c9f45f91d7961c3a54fb8890d276612e1246384b1470da24d8cc;
 0x287d681a46a2faae2c7c090f668ab45b8a71313c1509183e2ec0ca639b7f73fe;
 0x212bd19df812eaaef4a40600528f3d7da5d3106ff565aa3b11e29f3305e73c04;
 0x1154f7cf519186bf1aafb14b350eb860f97fd9740926dab93809c28404713504;
 0x1dff6385cb31f1c24637810a4bd1b16fbf5152905be36583da747e79661fc207;
 0xe444582d22b4e76c081d34c44c18e424011a34d5476252863ea3c606b551e5c;
 0x323c9e433ba66c4abab6638328f02f1815773e9c2846323ff72d3aab7e4eff8;
 0x12746bbd71791059193bba79cdec448f25b8cf002740112db70f2c6876a9c29d;
 0x1173b7d112c2a798fd9b9d3751842c75d466c837cf50d73efd049eb4438a2240;
 0x13d51c1090a1ad4876d1e555d7fed13da8e5713b25026ebe5fdb4808703243da;
 0x874c1344a4ad51ff8dcb7cbd2d9743cb72743f0394efe7f4a58ebeb956baa1;
 0x22df22131aaab85865ce236b07f244fa0eea48d3546e97d6a32a562074fef08f;
 0xbf964d2dbd25b908708b437a445fc3e984524a59101e6c18bf5eb05a919f155;
 0x9b18d9b917a55bca302be1f7f181e0e640b9d73a9ab298c69b435b5fc502f32;
 0x94f5534444fae36a4bfc1d5bf3dc05bfbbbc70a6365366dd6745a5067289e43;
 0x2999bab1a5f25210519fa6622af53a15a3e240c0da5701cb784fddc0dc23f01f;
 0x2f6898c07581f6371ca94db73710e88084301bce8a93d13669575a11b03a3d23;
 0x7268eaaba08bc19ec16d7e1318a4740565deb1e8e5742f862174b1a6866fccb;
 0x186279b003454db01339ff77113bc9eb62603e078e1c6689a6c9582c41a0529f;
 0x18a3f736509197d6e4915bdd04d3e5ddb67e2cc5de9a22750768e5524737172c;
 0xa21fa1988cf38d877cc1e2ed24c808c725e2d4bcb2d3a007b5987b87085671d;
 0x15b285cbe26c467f1faf5ef6a64625228328c184a2c43bc00b36a135e785fba2;
 0x164b7062c4671cf08c08b8c3f9806d560b7775b7c902f5788cd28de3e779f161;
 0x890ba0819ac0a6f86d9865fe7e50ef361c61d3d43b6e65d7a24f651249baa70;
 0x2fbea4d65d7ed425a42712e5a721e4eaa627ac5cb0eb878ccc2ee0aed543e922;
 0x492bf383c36fa55540303a3b536f85e7b70a58e854ab9b9103d7f5f379abaaa;
 0x5e91fe944e944104e20251c565142d61d6185a9ce85675f6a969d56292dc24e;
 0x12fe5c2029e4b33893d463cb041acad0995b9621e6e49c3b7e380a76e36e6c1c;
 0x24154adf0255d47958f7723921474131f2629fadc89496906cd01dc6fa0784e;
 0x18824a09e6afaf4a36ed2462a86bd0bad798815644f2bbde8813c13457a45550;
 0xc8b482dba0ad51be9f255de0c3dbddddf84a630af68d50bbb06983e3d5d58a5;
 0x17325fd0ab635871363e0a1667d3b67c5a4fa67fcd6aaf86441392878fdb05e6;
 0x50ae95f6d2f1519122f5af67b690f31e550773fa8d18bf71cc6d0e911fa402e;
 0xf0d139a0e81e943038cb288d62636764bbb6295f07569885771ec84edc50c40;
 0x1c0f8697795689cdf70fd2f2c0f93d1a79b39ebc7a1b1c549dbbca7b8e747cd6;
 0x2bd0f940ad936b796d2bc2e048bc979e49be23a4b13598f9fe536a16dc1d81e6;
 0x27eb1be27c9c4e934778c09a0053337fa06ebb275e096d167ce54d1e96ee62cb;
 0x2e4889d830a67e5a8f96bdd3155a7ca3284fbd307d1f71b0f151be62548e2aea;
 0x193fe3db0ab47d3c5d2ec5e9c5bd9983c9891f2cadc165db6064bbe6fcc1e305;
 0x2bf3086e96c36c7bce415907ad0c40ed6e9661c009679e4e37cb13027c83e525;
 0x12f16e2de6d4ad46a98cdb697c6cad5dd5e7e413f741ccf29ff2ea486e59bb28;
 0x2a72147d230119f3a0262e3653ddd19f33f3d5d6ec6c4bf0ad919b0343b92d2f;
 0x21be0e2c4bfd64e56dc47f957806dc5f0a2d9bcc26412e2977df79acc10ba974;
 0xe2d7e1dc946d70b2749a3b54367b25a71b84fb911aa57ae137fd4b6c21b444a;
 0x2667f7fb5a4fa1246170a745d8a4188cc31adb0eae3325dc9f3f07d4b92b3e2e;
 0x2ccc6f431fb7400730a783b66064697a1550c12b08dfeb72830e107da78e3405;
 0x8888a94fc5a2ca34f0201462420001fae6dbee9e8ca0c242ec50621e38e6e5d;
 0x2977b34eeaa3cb6ad40dd42c9b6fdd7a0d2fbe753af88b36acfcd3ccbc53f2a;
 0x120ccce13d28b75cfd6fb6c9ea13a648bfcfe0d7e6ff8e9610b5e9f971e16b9a;
 0x9fad2269c4a8e93c81e1b9770ea098c92787a4575b2bd73a0bf2af32f86ff3c;
 0x26091fd3d4c44d50a4b310e4ac6f0fa0debdb70775eeb8af630cffb60092d6f;
 0x29404aa2ba565b77bb7fba9dfb6fc3212543cc56afad6afcb904fd2bca893994;
 0x2749475c399aaf39d4e87c2548695b4ef1ffd86590e0827de7201351b7c883f9;
 0x98c842322479f7239912b50424685cba2ebe2dc2e4da70ac7557dab65ffa222;
 0x18cef581222b647e31238e57fead7d5c758ace14c93c4da40191d0c053b51936;
 0x13177839c68a5080d4e746745e43711d3cbc0ca4a108f98d63b2aa681698de60;
 0x20ca696f531e43ec088f56f4b74325626cc4df712c0e5f0a907d88e5f0deffd;
 0x27230eede9cccfc9fa805a30fc548db693d13708c646841d16e028387c7ac022;
 0x1645911c1198b01d64fde34a342a1786497c05969a015439057d2fe75bb281c;
 0x2c323fe16481bf496e439c88341ce25f198971e14487056cfdca4a451a5d8643;
 0xfc082dfe70728e8450bd2074c3e22e1b022c124d3bffe8b5af88ae6db5085c8;
 0x2052c174800db209d8cdca568dcc25b3be9642116ac4c77efe8a488b423521ee;
 0x28e420e10df2fbb5af96d621d55423190be351ce8129065a8dd9fd05b3ece9c0;
 0x25698ca5e24a1b799f783c4462a24db655d6ae1bdacd1cb549d6e0bc3ae5069a;
 0x160a9981a5c89a57cf8ffbfa57d51049a297b61074422ac134d9b857d6984d35;
 0x21c91a39e145c3bc34d9b694b843f3bf8b7cebf59ddbb0a064642b069997f3d4;
 0x1ac8d80dcd5ee876d2b09345ef112345d6eaa029d93f03b6d10975461e41734c;
 0xab3e6ad0ecf8b8e7c1662a4174c52225d822895e2755544b8dbcea5657ce02c;
 0x1c675182512620ae27e3b0b917b3a21ca52ef3ef5909b4e1c5b2237cbdab3377;
 0x2cdbc998dfd7affd3d948d0c85bad2e2e37a4a3e07a7d75d0c8a9092ac2bed45;
 0x23b584a56e2117b0774bf67cc0dee33324337350309dff833e491a133bb63b2e;
 0x1e9e2b310f60ba9f8cb73030a3c9d2a10d133bc6ba4ec1152f3d20de1465e9a5;
 0xe01e365ba5b3031abc3e720140ae746c9ab5dab987520c460bcd4f1fa5b22db;
 0x40884cdcfc64bfc7b7127340498d5c443382011b61c9a4b1387d85bc1264e68;
 0x190b1ee1205eb9500c74a3998f2bea36353f1724d6067ed0a0a17de311ef9668;
 0x1647c72aec6c4388d04f52fc23cd9c08c1dfcf65ce61e165fc28d1f832bd3b2c;
 0x2430006346a0145f799880cc4c8736269f5494d89fb48b02842e595b71e4541d;
 0x177b9a08343917e1365107a3da3ae7f69d853902bb16bacb3221850252b757af;
 0x4a420e642b11ae94e58862a68f5e32609cd53d0ae29423439b11d04666df4f8;
 0x25d0e0f739fb39fc105a88fab0afd810de2461858e956ccccdfabeddb6a25c8f;
 0x4476d91b7eff2fd85905cbf58651edc320cb15610eaed452c4d4ffa0c740a27;
 0x1090c0b68b3d7d7b8bc9ca2419eb8dea1c28f6d5e1250cb5e9780fd9ca286fae;
 0x25393ce3b9256d50448a725c5c7cd5ad376f2d435855c10ebf2899cb5c6617be;
 0x25931c0c7371f4f1fc862f306e6e5830ed824388d6b9342697d144f0fab46630;
 0x2396cb501700bbe6c82aad51b0fb79cf8a4d353185d5808203f73f22afbf62f6;
 0x26a363483348b58954ea748a7129a7b0a3dc9068c3cca7b5b3f0ce03b8724884;
 0x27ca107ca204f2a18d6f1535b92c5478c99b893334215f6ba7a0e5b45fcd6897;
 0x26da28fc097ed77ce4662bde326b2cceac15f7301178581d8d2d02b3b2d91056;
 0x56ab351691d8bb3703e3055070ac9cc655774c1bb35d57572971ba56ee0cb89;
 0x2638b57f23b754aec76d109a2f481aa3c22547a11ffc50152d729af632376a90;
 0x304754bb8c57d60732f492c2605184fdc33e46a532bdec80ea7bc5519ede7cef;
 0xd1727f8457ee03514f155b5806cbf748ec6857fc554010752ac93a9b7619ac;
 0xee1f3c66fbc05c43ba295a303c72fab5bca86805ec9419c588e50947761fa3;
 0xafafadcf5b4dd4a4a76b5a1d82415fd10a19fbcfc59078c61f9297eb675d972;
 0xb2449f39746085e86ce45e8eed108ee65a234835a0a6a5ea8996d124dd04d0a;
 0x206b0ce2f1b2c5b7c9f37b0045227095f6c6f071ec3bdda76a7ddf4823dd5dd6;
 0xfeba4fb87834c7cb696e67433628cd6caffc3a4ef20fea852c7e1029459409c;
 0x254dbfac74c49b0b8926752e084e02513b06f1315e6d70e18173e972336e55d3;
 0xaddb1372cee4e164655168c367559e19606c5bd17910aeb37719edfa0ca8762;
 0x26b25b7e257f3e97c799024fb019f65c6ca4d8d81b1ae16221a589d68831d759;
 0x90995b79acec240413b8d4c658787e5a4657b9ab00bdb5b1960b1059e113ba3;
 0x8dbdc2e21ef11f2c57299687843cea3eb0d8e40e99131f42974178d44f73b7b;
 0x9e8aba671481197679faf752a0f78e342fe9c491596ab6758f170939785179f;
 0x1deb05180e833e45659052a7ebaf816c7efd12a7f9eec94b7bc7c683f1363d5c;
 0x19a70ec6bdfc9098a926efbcc04aa9ee248997e8b2c24af335fd6523e5250879;
 0x21d773660adafb8a879986f9aab4890566353a3777d8a3f1eb93abe10bbf1f64;
 0x9f1890f72e9dc713e20ba637b89d5d397a6b01fcd667347f6f46617841c3901;
 0x5af459361eb454d2a300c61e446998d48fa1f897bf219d608c2145c33b111c3;
 0xfa1a1d6829f0345664a66dc75a657335f336f15f340756cfa12fc850cc8b513;
 0x2e47a35bcc0c3a0bda0b1c0307ad543f4280fcf87f636f853655cf97a628bb0;
 0x14f773e9834c6bdeb8f90e78bf4c24b7203411460112491036621895204d0f12;
 0x102d98cf502ed843255cf19d29bc7d8e642abe7cfd639992ffb091962fc8f7cc;
 0x43dd5f4aa5a76dd4c47f6c65da7ca2320d4c73ad3294738cba686a7e91373c2;
 0x21833819c3337194a6c0d29a48d4f2676f0e7c79743a306f4cfdb2b26bd11efa;
 0xf281925cf5ee649b474a6819d116ca3eb4eca246c311ecadc53262a3cff2b53;
 0xd3e2477a7b10beb44709c7746d6824edf625dd60504d5dc93ce662f15c238d6;
 0x2cd7f641bedbf66956ff8a01be9cde35d80f80ab51e73b49acbfc3eff5aefc44;
 0x29e95b492bf2f95f4d09380f98b74e389149d24045811d7a86dd861310463cf8;
 0x22da66bc62e8f011266efca86a6c810f9ae4c51af6ffeb57f8b3c50df83cc13e;
 0xfe6d30de7a82d163023491794f4aca3220db79e8129df3643072d841925554a;
 0x50e842a1299909123c46eff185c23ad312d03fef1adfecc7e07ecb298fd67f;
 0x2130a3a7b3221222be34cc53a42d7733666f9ddf714ed7c5885cbbdb63108c21;
 0x2df9ee294edf99e3d8d5883fe0566c24aa66731f34a93280e1d328e67b33c9fa;
 0x1bf7d6e489ad8c0cf26eb68cc21ff54158132396dc250aeba4b6fc5fc3372762;
 0xc602fa155be958761eaf739617ab136cf7b807728bf7fe35d4778d311780e54;
 0x2e50e2c5b36aa20532407d86b8d22d7d5154080a24972faeb63faf0121ed7f21;
 0x17c2510982a7b5825710d6290ec4f782f674995ee8409b42b459123b180332e1;
 0xb0d52f03c8af7276803ecf2465b885b21337b538eabd2f6b2ab255f376b42a8;
 0xf5633df1972b9455953d88a63f80647a9ac77c6c0f85d4561972dd8fab8bd14;
 0xebf7ad29ca13804e1422e939681155124780ff43e76e929035498130a7f1572;
 0x1aff13c81bda47e80b02962173bba343e18f94bee27c8a57661b1103a720ffe2;
 0x210449dbf5cf3061da2465be85505862d3f31de1a3b58ff35713be57efac6c07;
 0x88230c2794e50c57d75cd6d3c7b9dbe19d1e2f1d3001044b93ad1c3ee629817;
 0x1c408c256490b0a1da08dc464138dfc78cce9a9e16c7705617a4d6dbb20e7e3a;
 0x74517e081eb4c1f22d1771200fb07658f7c77654d58440490dd6f557e9e3903;
 0x2d04e9c21df1dbd88524bdb203691b4cee5530559d6cf0fa05adf61e12fdcbf;
 0x2eb7a011b8bce91082e13ebd75de3b58eb9b4650dae9f11aa81db32cf1b67b13;
 0x2efda77ed35f4af0299f75d6e8a849b54d2ac6bf95368304e6030c18f0cf17b5;
 0x9199dcafd50ce642eddbeda65206d4f61a73d10852b8114c51b2440192ae064;
 0x268c5cfc446d399c4dd319db666a75b5cb655d8c1797e9fa76181cb4216e1562;
 0x2303a652c949071826b0e9a36c80578697b44e912cce6687012854eda11a18dc;
 0x27c53563b12a6ee2c3f041f31dc45922bc5353eb110868d237073f4efb35fbdf;
 0x1201a87eaf4ae618f02bd82d0a5109049969b5248cfe90f42c278f22615d2b0e;
 0x2c43169439fcd69ead8214997bb069becafcb1ba2c51e5706cb4b43dab2a443d;
 0x683597315359040ea03c45d6984c6894f46cbb36d702e3c4fb9847e6304d944;
 0x3545706706eab36afb93b128febd16fb0425e158314197b77795ad3a798d183;
 0x1a33c254ec117619d35f1fc051b31728740bed23a6a37870edb393b71a0c0e6b;
 0x1ffe6968a4470cd567b0c002281caf996e88f71e759b87e6f338e517f1690c78;
 0xfd66e03ba8808ffecb059c899fd80f4140ddd5d2a5c4483107f4e02e355b393;
 0x263ab69f13b966f8197394552906b17e6c8617a7bdd5d74a7be3396b7fe013ab;
 0x16a425e47d1110625054d5a165de413e3bd87d5aa3958fdd6eb7e03e39ba4046;
 0x2dc510a4719ec10cad752f03c673f0e253cc31d13e39e909fcc5f73af9138d9a;
 0x24df8e8d856c5b5e1bd1cad23d07dda3423c5179329b7a82cb4aa709a94576e5;
 0x2bcc94ff4fc3c76f3cd5c68915a042e87628249a01b09561bdf24a6cdce5620f;
 0x76c1e88dc540c8d8de54e343df7c429d3295f52c38cffe6b48be86852da97df;
 0x9b5f209a451ac431c051fb12d9a5e4fe40ee1601120947da990fb8e12cb46e1;
 0x205f17b0d8729e2eaa88d6a44135a6ab64e9424f55b0f1ea0683af75eb677c07;
 0x281c5c688836f6cf912638c38be046cd091681f0a41761720cdd1edf9f237029;
 0x1a053e6878e900f45f4d67448c471cf3009a44e7a02ea50e4afa44f2592621f5;
 0x100dc7d426debe3007fb7ceac84e4f5468efcb897e7bbee981742839d59e064c;
 0x17022672a016a957bb87e2cfadc8b75fb28905bdb62c82c80b1cb31b411e49c8;
 0x1086db7e2760fc8b71053a87ebe151239fb8b547182b170de0c27203f954f4d2;
 0x15384fe39d73b63302460ae4c2942fac2b41fb65a185536fb85dd24fd7584064;
 0x2ebb599fe9136d424bf4abc5342c6c7447b1a853205fcfb5519e551357709008;
 0x1b4b5e87cfb9262cfec3c0f0542e4c5a4cf278292b4ce3eed996fac6f4d37288;
 0x2465053ae50b6885801f3f82e302cafbbb4a7581bb4fba60b637febe659e5057;
 0x114f32edcdea09cd095c5bb5d38f1b97da9f05e18b3708bf6e0ab9d3d54859ef;
 0x2bc70dfeb2baab2f6b387cd77be779ac2e5e5519f3d18123ee28d8c2543c7148;
 0x1c9bf7a203ce22b775e3a61ad7e77b6a78348b9f6ec68a412e49bfe32c05415;
 0x514b0fe5909ea887bedb0295fbbcec355cfb575ff6a97cd9f4ad00ccb57ee9b;
 0x267c76ec81934cc81a132a8b058910a12092520b12a201af03e3202d7b6c1b7e;
 0x29170e3322b3d8d5c78c84babbb470adf1622493ce83e95cfb151cf757bde5d6;
 0x19f6a8124b19e33af33e5d3873f9c335c6f09a45486cab536dd596ca41d9519;
 0x1904aa4d6908544a8b348e9db1981c27009ed8ea171518ae5405d036242b60e9;
 0x26f17873949bc679f7f043956694e422b3cee1de9dd6f6473b932a476455ff1a;
 0x1ac668f612b8243c193b33720b8aa54040c476031197131ebdcac9b18bc48f75;
 0x996d961a75c0d07196dae45bf624766ccfbf8555be9796da52f81568ef0663d;
 0x30c97e1b8cad1d4fd50d1b4383fbe6674d171f99c63febb5425b395c24fc819;
 0x6e3ad6a46900e2d3953370255b68f89b3e523f1fe502642ee226f2d8bd0848f;
 0x1d6b3755331cd0216b6880e42f9880f565cb94b0e0455153a329890588cc916e;
 0x28e4dcba4b96f12a59b041535e730ac8c35189dc0b85ac033dd38c08bae531f2;
 0x8b6086046a835508ccf484f2974b6a6b0712a476260376c7a3b3e4bc4a47a14;
 0x162cd2ca7fe3b5f1444bcec97812019bb6fd85fba6a0536a89643e15b9bb3b52;
 0x28f1e03baaea9bbc05af5b11937e4f5cb5c9a9c1192063d1998c01c64d483a76;
 0x1bdb062778d7c15da395af2734c25faa0127d2aab4aa71366031a0bb6791ce10;
 0x2375839502e09890cb2914e829627e0e0fc98870b2324a8b50329ebdd24749cb;
 0x1fa8662fbcb61fb3ad7c55668dc9423a332dc87cfb2df456e92d33611ed7bb50;
 0x1e4fad2dd6b0a6f1f8707f721716c8a446e2fb2c47a5138f3f7f9736079d7694;
 0x211256d16c7269fd6df6f5fcdd1fa788ba3bd050059f53d261b0f5f13731ffe7;
 0x2e49084b336eceaa4f8e2a2e6af08318f42060e574dda341f4a1079b12bcc5a5;
 0xce19f54cdc39f7f3bf35192ac6808211aecea08dfe14cab758d25891fb00bb9;
 0x11c5d56c390e893cc394221261d8748dc60451e4ae4e1c84a8468bab2c14cb;
 0x17d79ff06b63ac2a8a9e05ee6af3dbb7ca60e17bfa39b47514a8cd8051579b4c;
 0x19a7d3a446cb5393dc74560093592b06b1a8b35cd6416a2ecab00173639015fa;
 0x30c00a0933dcdba2a808b2e1b9282f331f04596d8928da7aa6c3c97237037a6;
 0x16bcb447ce2d50f3ae25ad080695382e935d2d00184c4acc9370be8aab64139c;
 0x12341b46b0150aa25ea4ec8715312997e62124f37cab7b6d39255b7cd66feb1d;
 0xe86d13917f44050b72a97b2bf610c84002fc28e296d1044dc89212db6a49ff4;
 0x8e6eb4089d37d66d357e00b53d7f30d1052a181f8f2eb14d059025b110c7262;
 0x2ea123856245f6c84738d15dd1481a0c0415ccb351a1e0cee10c48ce97ca7b18;
 0x2dca72b2ebcab8c23446e00330b163104195789025413abf664db0f9c84dfa6f;
 0x6ff9ed50d327e8463329f585ec924b3f2f6b4235f036fa4c64a26cbd42b6a6b;
 0x246a10b7e3e0089947f7c9bda3d54df8e2a60e0cca84ea2ac630a4535afbf730;
 0x22a63501c5f04b9018719ed99d700ee52f846a715ae67ad75c96b39d688b6691;
 0x2f4c50477f7fd9c671799ac5d2e224cdb9164f58351d8aa140ec07e514fae937;
 0x10ffb7aad1f51c7d13b17f4d876d9a1e38f0ba8a4a23d4b50cda32cad851567e;
 0xe9cefddc3c2d3bea4d39722532d5420784027352187e7af1a056935c35803ae;
 0x7af84a4d3141e7ac23352e6dc6ea4afa1656f96a33c8978a3e83bdd4ba62b41;
 0x2d9e31a10aebc761f8de00d14b1e566d1a39323d6e89b638e940f3ec8a22c3c5;
 0x27f19a6532e66b5333db1afd592f66f1d36034b314dad8447656747be27e64c7;
 0x58fa3c8454d63354b2024c3b4a577a180ed99f8f3155cd7e4d617d47d07ffd;
 0x41627b6715b780967957c080699343eb0414a205d3a175d708964956816a5d5;
 0x6ac49dd9253edc7f632e57b958ccecd98201471cf1f66589888f12b727c52d;
 0x131adffd8bd7254b1d8c3616bbe3386ec0c9c0d6d25a9a4ec46a6bf18301398;
 0x1c4a6f52c9fccf7a4138e413ef62a28377977ad7e25e49a3cf030e1cd8f9f5b6;
 0x3f2a6be51ec677f946551b3860ea479fee048ae2078aeb7d1f7958d2c2645f6;
 0x2da770aad2c2eb09391a0cb78ef3a9648a1372d8543119564d7376396b8ddc62;
 0x15278463665f74cddc1802febfab02cec9d45fe866c359c738062afb75d64a03;
 0x12fe278aa36544eac9731027090518d434e38ea966a08a6f8d580638ac54c773;
 0x149b9c802182558a4c45d119d3f4cc7fd8587604ca4f0d6e21b06ff30b6a23b6;
 0x812e7b4d847bc8517d19319772f3c9855e044fd60dbac9a0adc4959b691dfe4;
 0x2ed8d8ddeafe3d9d8df7f28a0bfaa7f555813c7e7503aea2a66973703a0c61b;
 0xebd073ba0537b514deb6029f921029e55e5e4d9a03d6b6ba1304038662d4db8;
 0x15c754d5b14b2c4205c6ba8d2ccd028255b3e792c6afa08b44ee75b62eff9f59;
 0x169515c89ac5479db0ed8fa6fa311b391cc1235270f4cbc5c29e7cbc30e8732a;
 0x25479fbfb3a68f982388f2621001101608bdc29f6ff037696d9161f5cd9a4fef;
 0x14475c4bd520451f3c852cb0311a578ca7f8e6e972182196ce09486e94be6071;
 0x45a691066cc66bec9baf2798833a1dfd3a847502aec8d5f5c4e73363d097799;
 0x26029c0c267c799fb833ac8a11e3a3f0147a8ca037221b90013b8bcb37eba683;
 0x163facb34ff572fbf7c946969c1c260873ce12a6a94a3e45b8101d5b948d1641;
 0x2c714e96e1913b351d969320cc69d5ec13e06a6275e58688af8ee00c4240ee28;
 0x1c1661e2a7ce74b75aba84665ecd2bf9ddd6268f06debfe2d52b804eff1d5fa6;
 0x6a69ae795ee9bfe5e5af3e6619a47d26635b34c2a0889fea8c3c068b7dc2c71;
 0x113d58535d892115c5d28b4c19a3609374dbdbadf54195c731416c85d731d46a;
 0x2ab89102e2b8d5e638ff97d761da6042e534f1ff47f7917a2ca1a74063b46101;
 0x3c11ca79e41fdfe962730c45e699546349031893da2b4fd39804fd6a15ad1b3;
 0x27096c672621403888014ddbbbfc9da1f7f67b4d4cfe846c6adf040faaf2669c;
 0x2de32ad15497aef4d504d4deeb53b13c66db790ce486130caa9dc2b57ef5be0d;
 0xdc108f2b0a280d2fd5d341310722a2d28c738dddaec9f3d255754448eefd001;
 0x1869f3b763fe8164c96858a1bb9efad5bcdc3eebc409be7c7d34ca50365d832f;
 0x22ed3a2d9ff31cbf82559fe6a911843b616945e16a568d48c6d33767129682d;
 0x2155d6005210169e3944ed1365bd0e7292fca1f27c19c26610c6aec077d026bc;
 0xde1ba7a562a8f7acae93263f5f1b4bbec0c0556c91af3db3ea5928c8caeae85;
 0x5dbb4406024beabcfce5bf46ec7da38126f740bce8d637b6351dfa7da902563;
 0x5d4149baac413bed4d8dc8ad778d32c00e789e3fcd72dccc97e5427a368fd5e;
 0x1cdf8b452d97c2b9be5046e7397e76ff0b6802fa941c7879212e22172c27b2e;
 0x1fc6a71867027f56af8085ff81adce33c4d7c5015eced8c71b0a22279d46c07c;
 0x1040bef4c642d0345d4d59a5a7a3a42ba9e185b75306d9c3568e0fda96aaafc2;
 0x16b79c3a6bf316e0ff2c91b289334a4d2b21e95676431918a8081475ab8fad0d;
 0x20dff1bc30f6db6b434b3a1387e3c8c6a34070e52b601fc13cbe1cdcd59f474e;
 0x212ac2ab7a6eaaec254955030a970f8062dd4171a726a8bdfb7fd8512ae060d;
 0x2f29377491474442869a109c9215637cb02dc03134f0044213c8119f6996ae09;
 0x984ca6a5f9185d525ec93c33fea603273be9f3866aa284c5837d9f32d814bfa;
 0xd080a6b6b3b60700d299bd6fa81220de491361c8a6bd19ceb0ee9294b24f028;
 0xe65cd99e84b052f6789530638cb0ad821acc85b6400264dce929ed7c85a4544;
 0x2e208875bc7ac1224808f72c716cd05ee30e3d20380ff6a655975da12736920b;
 0x2989f3ae477c2fd376a0b0ff3d7dfac1ae2e3b894afd29f64a60d1aa8592bad5;
 0x11361ce544e941379222d101e6fac0ce918106a463290a3e3a74c3cea7189459;
 0x1e8d014b86cb5a7da539e10c173f6a75d122a822b8fb366c34c8bd05a2061438;
 0x173f65adec8deee27ba812ad29558e23a0c2324167ef6c91212ee2c28ee98733;
 0x1c36daaf9f01f1bafee8bd0c779ac3e5da5df7ad45499d0991bd695310eddd9;
 0x1353acb08c05adb4aa9ab1c485bb85fff277d1a3f2fc89944a6f5741f381e562;
 0x2e5abd2537207cad1860e71ea1188ee4009d33deb4f93aeb20f1c87a3b064d34;
 0x191d5c5edaef42d3d02eedbb7ab8562513deb4eb34913a13421726ba8f69455c;
 0x11d7f8d1f269264282a263fea6d7599d82a04c74c127de9dee7939dd2dcd089e;
 0x4218fde366829ed90f79ad5e67997973445cb4cd6bc6f951bad085286cac971;
 0x70772f7cf52453048397ca5f47a202027b73b489301c3227b71c730d76d6dd;
 0x38a389baef5d9a7c865b065687a1d9b67681a98cd051634c1dc04dbe3d2b861;
 0x9a5eefab8b36a80cda446b2b4b59ccd0f39d00966a50beaf19860789015a6e5;
 0x1b588848b8b47c8b969c145109b4b583d9ec99edfacb7489d16212c7584cd8c;
 0xb846e4a390e560f6e1af6dfc3341419545e5abfa323d817fed91e30d42954a6;
 0x23a6679c7d9adb660d43a02ddb900040eb1513bc394fc4f985cabfe85ce72fe3;
 0x2e0374a699197e343e5caa35f1351e9f4c3402fb7c85ecccf72f31d6fe089254;
 0x752cd899e52dc4d7f7a08af4cde3ff64b8cc0b1176bb9ec37d41913a7a27b48;
 0x68f8813127299dac349a2b6d57397a50275142b664b802c99e2873dd7ae55a7;
 0x2ba70a102355d549677574167434b3f986872d04a295b5b8b374330f2da202b5;
 0x2c467af88748abf6a334d1df03b5521309f9099b825dd289b8609e70a0b50828;
 0x5c5f20bef1bd82701009a2b448ae881e3a52c2d1a31957296d29e5763e8f497;
 0xdc6385fdc567be5842a381f6006e2c60cd083a2c649d9f23ac8c9fe61b73871;
 0x142d3983f3dc7f7e19d49911b8670fa70378d5b84150d25ed255baa8114b369c;
 0x29a01efb2f6aa894fd7e6d98c96a0fa0f36f86a7a99aa35c00fa18c1b2df67bf;
 0x525ffee737d605138c4a5066644ec630ab9e8afc64555b7d2a1af04eb613a76;
 0x1e807dca81d79581f076677ca0e822767e164f614910264ef177cf4238301dc8;
 0x385fb3f89c74dc993510816472474d34c0223e0f733a52fdba56082dbd8757c;
 0x37640dc1afc0143e1a6298e53cae59fcfabd7016fd6ef1af558f337bab0ea01;
 0x1341999a1ed86919f12a6c5260829eee5fd56cf031da8050b7e4c0de896074b4;
 0x69eb075866b0af356906d4bafb10ad773afd642efdcc5657b244f65bed8ece7;
 0x171c0b81e62136e395b38e8e08b3e646d2726101d3afaa02ea1909a619033696;
 0x2c81814c9453f51cb6eb55c311753e84cbbdcb39bfe696f95575107502acced8;
 0x29d843c0415d35d9e3b33fadcf274b2ab04b39032adca92ce39b8a86a7c3a604;
 0x85d6a1070f3513d8436bccdabb78750d8e15ea5947f2cdaa7669cf3fae7728b;
 0x11820363ed541daa10a44ba665bf302cdbf1dd4e6706b02c9e2a5cda412fc394;
 0x201935a58f5c57fc02b60d61a83785bddfd3150e05f1df5d105840b751a16317;
 0xa8c2820c56971aae27a952abd33a03d46794eedd686cd8ecfed610e87c02e9a;
 0x180638ff301a64ca04abd6d0bd7500b6650b65ff33e6be1fd50dbc163a281877;
 0x95c716266f1de59044f97114a4158a3f85ca8a937cfbec63e9b321a812dd36b;
 0x17c31ea02fbc378320d86ffed6c7ca1583b618c5c1a687818d4087a497d73490;
 0x5b86c4bb8ef318b6a7227e4192d149d3c17a9764ccd660de4d50a77f192a91b;
 0x265bc95df4a4c4876ff70d7ea2fde2c7ab15f4a6ae0d237cd6ce74ba986c7a7b;
 0x24752b47bc6c6bc8d9bbe48f5fef2f6908701739c5f5b4b3d6c886d4715c7929;
 0x14814a1e0f492a4ea0d86e527a96482178d624b98da96ee5e583b9324d974efe;
 0x10def931073b6479bd60577378f29381997c8e041d3cfb3dc7523bca906f00bd;
 0x14f7ae770bf7e95f7f706c0d8ab4ed03fa0b880d28c69d031b4592c98610175f;
 0x1aef50a0cee751b59f926af40e8035d19decc9d428ebe4e775c5cc9dce1ce589;
 0x41935607172f68eba65ca60068dfe3b086c2a2d57d09602951214b57e73cf5a;
 0x26863e9dd24255d1573bd083959b856c0493fbefe83c819837a151d3bf452cb8;
 0x2036efb6f9830965eb3d7a068bd087c9f5adf251ba62052c652738e63ff8b3af;
 0xc712a975b74dc9d766b639a029969ca30be4f75a753f854b00fa4f1b4f4ee9b;
 0x8014dab3cd1667e27afc99bfac1e6807afdff6456492ca3375731d387539699;
 0x198d07192db4fac2a82a4a79839d6a2b97c4dd4d37b4e8f3b53009f79b34e6a4;
 0x29eb1de42a3ad381b23b4131426897a32709b29d53bb946dfd15784d1f63e572].
(* poseidon_bn128_constants.rs:10947-10979 *)
Definition bn_m5 : list (list Z) := [[0x251e7fdf99591080080b0af133b9e4369f22e57ace3cd7f64fc6fdbcf38d7da1;
 0x25fb50b65acf4fb047cbd3b1c17d97c7fe26ea9ca238d6e348550486e91c7765;
 0x293d617d7da72102355f39ebf62f91b06deb5325f367a4556ea1e31ed5767833;
 0x104d0295ab00c85e960111ac25da474366599e575a9b7edf6145f14ba6d3c1c4;
 0xaaa35e2c84baf117dea3e336cd96a39792b3813954fe9bf3ed5b90f2f69c977];
 [0x2a70b9f1d4bbccdbc03e17c1d1dcdb02052903dc6609ea6969f661b2eb74c839;
 0x281154651c921e746315a9934f1b8a1bba9f92ad8ef4b979115b8e2e991ccd7a;
 0x28c2be2f8264f95f0b53c732134efa338ccd8fdb9ee2b45fb86a894f7db36c37;
 0x21888041e6febd546d427c890b1883bb9b626d8cb4dc18dcc4ec8fa75e530a13;
 0x14ddb5fada0171db80195b9592d8cf2be810930e3ea4574a350d65e2cbff4941];
 [0x2f69a7198e1fbcc7dea43265306a37ed55b91bff652ad69aa4fa8478970d401d;
 0x1c1edd62645b73ad931ab80e37bbb267ba312b34140e716d6a3747594d3052;
 0x15b98ce93e47bc64ce2f2c96c69663c439c40c603049466fa7f9a4b228bfc32b;
 0x12c7e2adfa524e5958f65be2fbac809fcba8458b28e44d9265051de33163cf9c;
 0x2efc2b90d688134849018222e7b8922eaf67ce79816ef468531ec2de53bbd167];
 [0xc3f050a6bf5af151981e55e3e1a29a13c3ffa4550bd2514f1afd6c5f721f830;
 0xdec54e6dbf75205fa75ba7992bd34f08b2efe2ecd424a73eda7784320a1a36e;
 0x1c482a25a729f5df20225815034b196098364a11f4d988fb7cc75cf32d8136fa;
 0x2625ce48a7b39a4252732624e4ab94360812ac2fc9a14a5fb8b607ae9fd8514a;
 0x7f017a7ebd56dd086f7cd4fd710c509ed7ef8e300b9a8bb9fb9f28af710251f];
 [0x2a20e3a4a0e57d92f97c9d6186c6c3ea7c5e55c20146259be2f78c2ccc2e3595;
 0x1049f8210566b51faafb1e9a5d63c0ee701673aed820d9c4403b01feb727a549;
 0x2ecac687ef5b4b568002bd9d1b96b4bef357a69e3e86b5561b9299b82d69c8e;
 0x2d3a1aea2e6d44466808f88c9ba903d3bdcb6b58ba40441ed4ebcf11bbe1e37b;
 0x14074bb14c982c81c9ad171e4f35fe49b39c4a7a72dbb6d9c98d803bfed65e64]].
(* poseidon_bn128_constants_opt.rs:257-356 *)
Definition bn_C5 : list Z := [0xeb544fee2815dda7f53e29ccac98ed7d889bb4ebd47c3864f3c2bd81a6da891;
 0x554d736315b8662f02fdba7dd737fbca197aeb12ea64713ba733f28475128cb;
 0x2f83b9df259b2b68bcd748056307c37754907df0c0fb0035f5087c58d5e8c2d4;
 0x2ca70e2e8d7f39a12447ac83052451b461f15f8b41a75ef31915208f5aba9683;
 0x1cb5f9319be6a45e91b04d7222271c94994196f12ed22c5d4ec719cb83ecfea9;
 0xa9c0b1916a8e41d360d02e6e2e5d1b98c34dfcec769429c851867e46e126fa3;
 0x1dd6ba3731e49d21e8d36e9d4d1edad245ebf9bdd9ebb60a252e4804a6390f6a;
 0x24ae2a67c3d521c11a11b7112abbdee30647107b808866a980837d0d7da4e3e0;
 0xd20c9310b5c14d9ef12866af5a45eae3ca9be16d200497066c8b2ee96781d70;
 0xe047c9821fe94d55d400d763a66c4c6169993abed543c7284b4a35430019445;
 0x29474ab799b1e13948eff41d2ce79bfad335d09110157076988ac207e10c81dd;
 0x3899f139d0dc4b281be3b74ab4c70789b7f41e7aca47ea2722a20d79afbca93;
 0x1866624f761ab8dd7a91c5f37af5e47639951d5acb6b1bbf3b96ca273f71029d;
 0x13c119f36718f7d5f09ad8541325a13acf6b34db6d9ee2af7ea06061240f3009;
 0xe4a1008158077402b11f13c08890b739643cc8e93fa44487b5a1575dd867fd7;
 0xef505fd44ac10a251b670dafe14cabd9ada9e3002210ac9c3876f37de4e7ad8;
 0x1d31e4e2a5978b7491c43d367470a5a5d1445b6b8129a5b9a6fd238405720de5;
 0xa979ad5428d481cb624d9d504524a9694ca5cb4421b5d1dc6af2c030fbeac39;
 0xf7fccd2ec8bc6ed9ce3682f38aa291deea9373f4995778bf762ade36d6ab2a0;
 0x2691b924dfa123005f7c078d9bf8706defe99c2ba99bd6ee53b153e9fec7bb80;
 0x2077df6510b4860e56b913bef3a80dbc464b0e4678add60dea7a9517463220b;
 0x29ee09d8af9d24ca49350ce2e0aa47d00a3dc21bafbfac1c9ba61c58e2993e8c;
 0x8b292c661d427506b9a01916624f3cde332aaced9f1a494a733cea6f25bfaad;
 0x2583699ce536a757b22e4713edfbb050092c84abc72c90ad87393a1da9a4cf90;
 0x1e3f1b660223d65ad88999475374f6e25fd4148eb8110a0b12cffa19657b0b66;
 0x20f3ecbb37c34aec79131455461259e59b222f0ee8e02f3194cf62a9ad4c3448;
 0xdf4f5088e4444fbf87d553ba62dbda95696d8b9cf6210b1c85513b1776fbc64;
 0x2b348effd4c9cef00a1cf4dd67dd664b2ffe361a807c589a252c63bcbfc6833;
 0x1ba1e522fcb153676cd8f20e82256f0327c000fa96b1b462fc84b556f26a86c7;
 0x294c44df8e68c96144e964c37bbc5766764ed3550aff80dbe9d3fa74419fe50;
 0x313716eec6dcd8a602ca040700498dc04c77dfe2194753c59bc818c1d2636a1;
 0x287dec74696d663e2359f68225de955384d960bbafb90967429a442e19e3ec61;
 0x25e42f72c6be0942311ba097cf365683db4962c8204fec9213f0f8f72c1946be;
 0x12b6881b96654fe1768c242acd5399b08639f081a94896f5ea6da70b6b475c91;
 0xdfc2b54546fd3267d7be55c716cb243ef18118ed9498c8270449bd9418afdb5;
 0x27dd55fe0d5c0ff56ad4890fa029c27c5f36d04cdc73899ab99b2872b28eedf0;
 0xc60962711aef16e7a2ce59f587443ec8b41ef8dcfccb38188adcbddd32f173f;
 0x2edc09feb267c6b586e62fffe32bf5f16c28b585986b81116684b7e8b40d42d2;
 0xaf8386859db252ff295a19466d8d100622c90502137aa1cd4c4bcc9656d11e2;
 0x121f218392f73d4c16abe382102a459e6c080b3ca4eda51a23e651a13a680550;
 0x1ea38273f5d59e65061f8c775c571ffc75ef67d29405b5e02913cb3019d56f8e;
 0x9bd2349005699bcc0ac35b627e2f8f08bfc3b0bf30b146f37742ac1556187fe;
 0x91c505b1e92448c11aea22aaac4d44f6a7f2132f89e91b7f55f9404696c1433;
 0xb316f1c29689d4f490f7fcdd5e9f2d256d443ba14cda4bb799b0573a931a99f;
 0x2049251919a8f3f4398188b81f99d2e2d0e3f5359cfa55bdf3aa75fdadf367e7;
 0x1fe7f9eb6788101908814168e3e4cf7a899a105bf9e584af0064188a4aac55bd;
 0x158e6579b0388153b0acd630ea94de8f6d966d529c2d01b9e9b1c67c1ec1d570;
 0x1994f82f27153afb9de2aa3f4be05c4b2c487e393dcedca2566aa6b7fbc3696b;
 0x1b6250553e8629a5a8a40b568432ce7dbd83c87603eeccc8dad572ccebef6e1d;
 0x20296940a7d1eded2ae79fd78fa2ac11abb2210bf24542feabee71f0d0d7c9e;
 0x2553943f9e0ffce9c297cd31c29f1fa5f01883cc9e504fded7a905032c170c89;
 0x1c56eb362896c2f00ad18faeaf04d577f5feb4db4e077965c38f2eaf5f7be08c;
 0xed8857205e0680055de7e822b6f7d62ac0f75fef67da1ff7b7735208885cf90;
 0x118f91185a09355f9d8c3f556367a2bebe79e7d9528a8d72a592681671aac75;
 0x2a71e6a67abdb25a78010fe6fe0a20d1d84e21cba75ad55937dc1834c13af0c5;
 0x2327dbc05997ce8575680e4b8929d4e9ed25fb9204277d603061986dbee57e0;
 0xe05235e01f21cc3f2971c382d18c14e41785a5ec8d447cd93d13281792e6d6e;
 0x98afa2ea7ff065b2adfc4ab00f3b04496c1e490eab264d2370b107e5a49204e;
 0x27bddb7bf06eaa63419adae44209dd25a4e35edcb863b009bd34ccc4905d204b;
 0x2704406bc806f4ccb19085cb9d3771b12ab5ce7aabf0601e9e06a2bc98837ade;
 0x21c75c54664b9fec86756aa9027261975244f42cf91c9cc0b33c2a62b756a3ef;
 0x2be84c1d84c16038ea5f933290699daaaa8164c5ea39a02bcbddc66cf69fe8ec;
 0x2c970e41d48649cf013c676c8c688ac165563720d1d5f32628ac5b239488a96e;
 0xe1ad2660a2e958daa1f2654b3a37fee60546ca0327150733070742edc806435;
 0x2060ee7fdf775fc7e389a55376374c9e35d5c8763d597f426304e236f577b829;
 0x1e0116818c843ed86f09daee0a581af10d52deeadad77656e736eac08e6f0f17;
 0xa89c1498ef25a383d886bb58424e6940ac399e3e557e9de951a697c54a7576c;
 0x303743d6f36d925e1097483350f5bd2cb297d4ec9239209f63c516b849a67e6;
 0x8cf44446d968430232df175d462b9c9b0e2e2c37e8406764cb96c7c3446018d;
 0x2419811cbaeb3f551b0a9232eee5d53e3769fbcf5239533074375f1b00777f16;
 0x4237c622626db376b774849dbbe876809082f1b13f5824f4c58369f27fe7b6;
 0x1e5b490c72eeb607e114a5cb87a8494b178937cdee34b9e8e947342c14454558;
 0x4265333e59e1a5ff749203cb4a5d1415a72862c61380b1c242d0f32ca15b97a;
 0x189deaf74258451ac4da682532be43d24a5c683293c1ff7486de26d35d982e86;
 0x4ec516b0fd42fa53a34905cfdedaad021b36399d03d8263ae08c46af3eca76f;
 0x2ce1c8a00845a82b3aa1b6642fc988578576cef86196525e6d595c7701ad700d;
 0x247816fd0d34f9d3b396917478605c94a1c052a6ed663bdc344e7aee9686b6b4;
 0xc676dbe6c494d5609c444de622bcf60cf555091a507fce86477019daea987d;
 0x1cb395ade530fc2407aa7b2148d2dfaee30f4ddf258fc149cce3c5cde80a85d5;
 0x190e1494e3cfdada3b9e65d8fe3c1ec769540da023f9ec2e56259f6a56890b0e;
 0x18f2941b2335138336c351a792343222a845ee0a2ea5a3b9160c1d6d9b229fe2;
 0x14ea23ce8b2312e07df57e0aece1da5d2c0e01f757e6a5c86ab5e403688544dc;
 0x2818ad1005f4efb5d554361a29f85ea10940d6e71f38e8369beff3563a660bbe;
 0x23ce3a9a522915a281793977b49054c37d65f90b841e0ca90817bab49d79db4a;
 0x6c2ed2be876309a9b3b44ece37b1c42382927dd04249658a3d41e3f38d5e022;
 0x18b6740f72d77ebcf642b945ca2ed6c8a9853a3749d7fab6051e4ca36f44fc42;
 0x1feacb9eb2a6878061374d069a9dae328369ee63e75a1b99cdb06a48b0d9976a;
 0x1a44ee4565a967647300c75ed2b2543d8d45d5477fd606a356d1073bd13831d2;
 0x41f3b3b5b1050c16bf3d62d87d5d273b067da484679103231ed65a18da9fe48;
 0x1fd958cc4fe0a290bd0fbfb8b8a513acb5898d63bc0d7e585b7d081c49eb5659;
 0x175daba07c5edbf84f09c87a8c34dd73325943a48fc12cb839dca47512561d2e;
 0x9cf0a4e6e31dc24dfd5a5a27a77833e477d5b2d92cff5fc5ccad9528c43ba78;
 0x12d49465bd4120cbf78e5a3414d44c6530bc963bd701c54d4c6418a6cebe80b1;
 0x101b2f2b675804d3b26b2bd1e07c7365af0bfc2edf010916eefb39e28215d44a;
 0x114fc65faba09a59749e0b5f111930783529a0638456216232cb7e5a339736aa;
 0x1dff99b52799afc802c2bbf9b67dd044d3cb51017dc4f88358ddd67366d3a9f5;
 0x290f4496a52dd4dda59edccd7325038bbdc0554ad3a9a0be7931c91062a67027;
 0x91e8704663c516c3b96721d2033d985089fb992dca48c8ddcb97d7d15c7e188;
 0x2dce22599de04196a0169fc211d0f9c8692643aa09728eadf6d50bb534c0e323;
 0x29a7ff0720e170c0e67efde72795328fecef66daada5f0e2ca858a8c6135fd48].
(* poseidon_bn128_constants_opt.rs:2306-2338 *)
Definition bn_M5 : list (list Z) := [[0x251e7fdf99591080080b0af133b9e4369f22e57ace3cd7f64fc6fdbcf38d7da1;
 0x2a70b9f1d4bbccdbc03e17c1d1dcdb02052903dc6609ea6969f661b2eb74c839;
 0x2f69a7198e1fbcc7dea43265306a37ed55b91bff652ad69aa4fa8478970d401d;
 0xc3f050a6bf5af151981e55e3e1a29a13c3ffa4550bd2514f1afd6c5f721f830;
 0x2a20e3a4a0e57d92f97c9d6186c6c3ea7c5e55c20146259be2f78c2ccc2e3595];
 [0x25fb50b65acf4fb047cbd3b1c17d97c7fe26ea9ca238d6e348550486e91c7765;
 0x281154651c921e746315a9934f1b8a1bba9f92ad8ef4b979115b8e2e991ccd7a;
 0x1c1edd62645b73ad931ab80e37bbb267ba312b34140e716d6a3747594d3052;
 0xdec54e6dbf75205fa75ba7992bd34f08b2efe2ecd424a73eda7784320a1a36e;
 0x1049f8210566b51faafb1e9a5d63c0ee701673aed820d9c4403b01feb727a549];
 [0x293d617d7da72102355f39ebf62f91b06deb5325f367a4556ea1e31ed5767833;
 0x28c2be2f8264f95f0b53c732134efa338ccd8fdb9ee2b45fb86a894f7db36c37;
 0x15b98ce93e47bc64ce2f2c96c69663c439c40c603049466fa7f9a4b228bfc32b;
 0x1c482a25a729f5df20225815034b196098364a11f4d988fb7cc75cf32d8136fa;
 0x2ecac687ef5b4b568002bd9d1b96b4bef357a69e3e86b5561b9299b82d69c8e];
 [0x104d0295ab00c85e960111ac25da474366599e575a9b7edf6145f14ba6d3c1c4;
 0x21888041e6febd546d427c890b1883bb9b626d8cb4dc18dcc4ec8fa75e530a13;
 0x12c7e2adfa524e5958f65be2fbac809fcba8458b28e44d9265051de33163cf9c;
 0x2625ce48a7b39a4252732624e4ab94360812ac2fc9a14a5fb8b607ae9fd8514a;
 0x2d3a1aea2e6d44466808f88c9ba903d3bdcb6b58ba40441ed4ebcf11bbe1e37b];
 [0xaaa35e2c84baf117dea3e336cd96a39792b3813954fe9bf3ed5b90f2f69c977;
 0x14ddb5fada0171db80195b9592d8cf2be810930e3ea4574a350d65e2cbff4941;
 0x2efc2b90d688134849018222e7b8922eaf67ce79816ef468531ec2de53bbd167;
 0x7f017a7ebd56dd086f7cd4fd710c509ed7ef8e300b9a8bb9fb9f28af710251f;
 0x14074bb14c982c81c9ad171e4f35fe49b39c4a7a72dbb6d9c98d803bfed65e64]].
(* poseidon_bn128_constants_opt.rs:4428-4460 *)
Definition bn_P5 : list (list Z) := [[0x251e7fdf99591080080b0af133b9e4369f22e57ace3cd7f64fc6fdbcf38d7da1;
 0x12873658ecf188d299b8ccd568eb14a4d4307c5caa95633dc296f05cfc966598;
 0x153cf8033d8e8a15cde2c5e6b93da4018c5954d00a9274ec5ec6d5101ea22761;
 0x9f15a882446823fdca6f6ab15dd8e250d90c84470516671afbdfb0de80fb00e;
 0x167c655bf6cf3e0fb64c9075773bc862b24b4ce2f69c8ec198add2758a2ce216];
 [0x25fb50b65acf4fb047cbd3b1c17d97c7fe26ea9ca238d6e348550486e91c7765;
 0x27f9160806de9ef57ddb4243f839e4b7e8bb293ac176fdc5b5419ed73a07999f;
 0x16fceedd703bbbc2bc6f1d792e501939105b044b1b904d3b110110da983ccdc2;
 0x2eaa925d06b6f5a77c0d5cb20598742791495cec84593a57ee9fc4c9115ae7ca;
 0x279b324735fbc883e24f191ca7039f9986115b9e6fcf4946cf45f08ceda2dc8c];
 [0x293d617d7da72102355f39ebf62f91b06deb5325f367a4556ea1e31ed5767833;
 0x97d71f1fd579a0d0f436a6b36165cd23a9fcab03ad25e7872cdb09b4a0ea0dc;
 0x1a9fd26611128d592d594f51c251dbf4eff6dccecbcf2ebf310e34bed661337e;
 0x21eb30a57e5912ab06d18573fc546b2bf3be840d5f5ede01f91dd2bbb578dcc2;
 0x13abaf72889b31372b1e6f48759371ef65bc57d28ac2f60e6d227eb008b96ced];
 [0x104d0295ab00c85e960111ac25da474366599e575a9b7edf6145f14ba6d3c1c4;
 0x19bb8abf6a012cc7b8b974039c6be6df31446a51702b39a8d90ae4be7ec33ec9;
 0x11075889bc0dcc9d6f06af3012f04aadcf9049de04fc775f8fa091702e70b9bb;
 0x2e4cb25599a3dbf07de338827b28d16b9c8fcab8fffe8f2a16161be6a521a358;
 0xc7a700b33fb23fc642e0e8671deb84d05ded8ccbc968d15171182e158684e85];
 [0xaaa35e2c84baf117dea3e336cd96a39792b3813954fe9bf3ed5b90f2f69c977;
 0x2b5d28e8d648bffe0fab59e3c7d983a4099fa0a4c548df0006e6d0f4e20206c1;
 0x1a96c37c461ab8a38ee15bc2784c5096d30d1482e57c2f861bab95584b90d84a;
 0xdbdd3171308bfcd3cb8b8a676592858b8652e902142beb8fe4145002fba8e0f;
 0x17ac4855f295a3b8fb8ceded7f4b39290647a0145af56b03b01e957808d66fa7]].
(* poseidon_bn128_constants_opt.rs:7347-7886 *)
Definition bn_S5 : list Z := [0x251e7fdf99591080080b0af133b9e4369f22e57ace3cd7f64fc6fdbcf38d7da1;
 0x351d582486c39726623750495e297970b0e19787b49173a9388a0d5b08788ab;
 0x10e1a3beae297a472a31a3b51514c664abb12ec2d15860a29d2a9352d3ce8ba;
 0x12395fabf1c14664faf3ecc72a84623c1d5cb7b5e5744e602c886a5773e5f06d;
 0x9b91873151f00b299a173a5b736f73fbe2ce543f0b4d237565bd58758935cfd;
 0x1d53cf618f93c90852172c773264b8f49e938bf22791cff829e95ff6942299b;
 0x1a78e48450798918f254396fa7417bf2c5ff69259200c2a8d53af5f2c4d8ba1e;
 0xd3d4c1eb9828c87afeca8ea128d1d533750cf555c6b70d70a8520ccf16feb;
 0x3af062fcd1ca71ba6de0ca4436f1a5a0698a3f49abbe4ecf3daa0ea2e4dc84c;
 0x251e7fdf99591080080b0af133b9e4369f22e57ace3cd7f64fc6fdbcf38d7da1;
 0x1ad1ba4f26d401924b25657414256b59767284a692897ba5cd53a7f5322005fc;
 0x1133694747d2cb4890f4f5982564eac6019ca5a9091b302d2c10b87297041d5f;
 0x1b46c42ff1aa475972e26f559a88164024234f7b392039fb2a2171be631bd8de;
 0x1954aa0a79f14968c817000929e2e744262871011f238d986086e7d9574936b4;
 0x7aced898db99ae9796fc7191a103b9de4c77f0e08ecea6aa593974f652ac4ba;
 0x18a5a098d914f6221726d42ada7683a1605e20217a09489c9b2d84c3cdd2c39e;
 0x13e00cf4ab3b1e028165af8d41019ca20a21aeb40926592a180f9806083eb5a0;
 0x478f72938b528ec79defe09215b46320801fb752ddc88d638a48790561b4e2b;
 0x251e7fdf99591080080b0af133b9e4369f22e57ace3cd7f64fc6fdbcf38d7da1;
 0x8ff43b0eda2134077b96d7e4cc37a6871254910ab4c58a4bcc78c1bc6ce3937;
 0x27d7fa3ab9c438b6ad1ec5a60e8ad91aad02e4d2908ff7192e5ac0cebd91f928;
 0x1e9ac8ae7cf2b40d629999251be50d9771391326a664dfc206f2abec8efbe56f;
 0x2d6b56b4849de82b636d81f2e98476bb6c35cbc8962137b615bff86f8f261971;
 0x21e70566d2f4bb8728fdb3749da99a2143a0d90bb6c1b0d6d02125aa1fe63092;
 0x1c01c050dd9b0b8ec8e5ee1eaecac1171bf69a8f3d477eb7ec3a605b010d4ea5;
 0x282e8dde73a0dc74ee10816aacc1dba10c142109c14ad7954eb7b56ca268a16e;
 0x767cf96b16035a96d19fcc57edcd92e746d226cfe84b733454c7ff9a16d25cc;
 0x251e7fdf99591080080b0af133b9e4369f22e57ace3cd7f64fc6fdbcf38d7da1;
 0x18974b9f253b6bb681f82ed0f2d3e6b4f70ca858468b7f1bd3ded1a581ec21d9;
 0x18153fe8966abfc450a25222a6a27f6175fe851989776dcd2111a5a2de99c2da;
 0x2da1e2e775539490c2fe2c827e65c00e382a4a5d6c49a8374381d39c627f36c;
 0x2608589b9cd3f4c12b4e832e05fc5ebdcb403cd6560a8d7ece8d17ac94e79e06;
 0x5b4b074edb1366d35bf1c1ec1451a36cff351b407a8d30d563471bde491f146;
 0x856cc5a00bc37dd0217920da66c5765dea0644555e35822d7fd464d9eb38096;
 0x2021dde3ed193bdade457c9db5ab799e6b3fca640669d2f6295b4852f54d446e;
 0x12e3785f05f36bb797b2c9f03c5a55fab52e88b0550b7155d6013b706574d41b;
 0x251e7fdf99591080080b0af133b9e4369f22e57ace3cd7f64fc6fdbcf38d7da1;
 0x118084c76d1340b3980add4df3878df4ffc6e9fe26f0b5c4e2f9579ee6fe2c1a;
 0xb9dacae8623c514c622c85753ef7b994d9102ab46620f956c26e9c62fe53050;
 0xdaea6d18a826bb2ba972ae16dc621cb8fdf9ecd531ee3c9f9d0b4012da6769f;
 0x8f2a5df6437e253b579921fc3208b3c176e5a18dde267a4f85b7afb7f79ceed;
 0x6a91d7c75e34fd43d9aa53b7d2793e4d5d70a5fecc5fd5653b162ba2631aa68;
 0x207579e33c36af2d20d759996c313f78dc339878c0a289d5db58b6b3d6069c56;
 0x25562540cd12084b3392c8cb8cda95ffc9c2dd6f8a75054ce16acf87ba871b9f;
 0xbbf47feca60b93dd0501ee0fc294c2a82b103817b4acf0af6979183afcdc87;
 0x251e7fdf99591080080b0af133b9e4369f22e57ace3cd7f64fc6fdbcf38d7da1;
 0x1e0814ce223453b24804a1ab4ce39815e35aed2fe9f7510e6288abb9d8b15711;
 0x18f9aa2721d95963399ae18d6d95a6f81b78b528e750554eb2613d6dabbd72a9;
 0x2ea329822ad302ab8831c559c64080e7ba6bf4c98ea0caf9cddd929bbb5875a6;
 0x29910d86bc27b38a93bca80677a3647c01cb5262ed19cd0c00872925a046a338;
 0x21c0a05ace45015ea895e01d630ce6b7423f3c211d26e8b6ef54d3dfc0660ab;
 0x25e7c463042f520ed2ff8c68be30bdddbd7ea5cdd7a91224bc6a32a3f5c0fcc;
 0xdf5b7e7663197f911e0dcd1ff4237ffdf080234e9b92201538ae7db6b6a7d21;
 0x94d0fcd9592b4771d2b9bfbc2bd78defef3b6ca923c68382650f9d63ce37c85;
 0x251e7fdf99591080080b0af133b9e4369f22e57ace3cd7f64fc6fdbcf38d7da1;
 0x270361108967ed0391a49d4b7cd6af9bdd544e8bf048658c4fab36aa12407263;
 0x18bbf89e7cae93044c847bea654101914dbdd1656483e54e07ae332857821961;
 0x4aa47a0ede64ecdfa83507a2b8947b4b587758d75239071f6b4d3d66777bc1e;
 0x182d30ec988fca803ff7def1470c06aa6a596f56710184909fda17d354d3ce02;
 0x223c27171e456846dffc59cb1a53c761afddf85582e4c70ebafddf10eb1f8448;
 0x7d46dc97554a25edb78ea4d862c48bc5a08e9ea1eb369c5c8c2e0903114c915;
 0x1bf473a2e982e519523b486d264941d8e32cbbad362bdbf736d7ac04c4d2a964;
 0x12277b175bf54c3f2b0a57eb189e77714cf21630ace1fcf44d39397aae5b6da5;
 0x251e7fdf99591080080b0af133b9e4369f22e57ace3cd7f64fc6fdbcf38d7da1;
 0x15c0a2cfffac7feab86a185031f489a9f83e89e3337a84b51dfe6fbb57feb15b;
 0x2b83199ec584185de52190f5a415c1fbb9efd4bb9eae4c4e2763abcf99359ccc;
 0x28601b9940a312c65b02adccb76937ef645d4e451c940ad4241b2b0f4925d7da;
 0x1a187b4875be24a2420729e016901b94ec0566c8a6936978c3f21e8d611996f7;
 0x10ed1fd44722d10bc7e44824e64978d36e68d56de2a465a0201b8e31065d5c57;
 0x2c4b6867179a949d377a9bfd3efe48456f7e70f02d859c78684a3573486dc227;
 0x15cb2c17aabecf7aa0f61655a8bb35a7afd87d0e20ac38fe21a07da7b388dfb1;
 0x4dff03c742111aab3e61f4166a733e87699c1ffa889fce179316e39f7d845ec;
 0x251e7fdf99591080080b0af133b9e4369f22e57ace3cd7f64fc6fdbcf38d7da1;
 0x17baac874eaaa88de70cc92d5a72e00be4ec0e5e99ba7cbac2b0d98cead394a1;
 0x1dba338b4779919a2fb22ba949a050c85a73983d5ea4752cd73f664fe05f6247;
 0x1e33e7fcc41f32f90de5771d69e58f4486290c7b856becd5cd967d8e7739f719;
 0x10877ad7cf0652a2ff93977d3862e3ffb5d87d0c040f02a4f98612afafc9b604;
 0x115d3675856ff59ebcc9110defb9d6c70df6af533d4b0875d0e5eec430350595;
 0x3d74b961ba9013a874e7bcdc782f478da6097537549db7e6af4702ca749dae5;
 0x2563411e29867500a8fd18e4eba3c9a2b7992e44d263c29f7e06000f74887cdd;
 0x285501c4e0ee1b3c3e6b1b29160d6ec0f1af4dc2f36a4a1e654b7b47899738d7;
 0x251e7fdf99591080080b0af133b9e4369f22e57ace3cd7f64fc6fdbcf38d7da1;
 0x209194489c86891b179e33103a81d969c5c75e941dc30e7228c04ed8ba68704f;
 0x2c7b2835cb79c29852926900cc168b2315aaf03a89532dd9fc162c2f7ddad845;
 0x1df181c420308c5b0bf00ee21c16f248edff686e9e835869d1022dcd4a8a635a;
 0x1ffabdffee2481d8cc1233506f708d9acabc1d758bb99c329142c866ef4c7474;
 0x8955ed55c2bec07027e4355a694a9b6ae1d9d50126563b29d8a074ea65540f5;
 0x1ab4b24a4db7c5758471846eb375163e7587791417cbc355b6ce93b64fd01da2;
 0x25a3439d2838ad459270bc633164f3a68215e11217eef1d605ecfa8b1805c609;
 0x65240d63179ae83013295a8251fbe17dd988ca5c84761ccb6a6ecb2bfbf02a6;
 0x251e7fdf99591080080b0af133b9e4369f22e57ace3cd7f64fc6fdbcf38d7da1;
 0xc1a91ddc1b24113bf876a2ef895c3315cd1b109cfa569b79f3155ee12b1c564;
 0x146fe8e28539ae36ae921069f4af83f675f1b68399efceb18989cab5fdd36ac9;
 0x1ba8c3cfa46425412e30790090980db139810efed7bdba7a38adf75e1a0d3641;
 0x83a58c9d889b74e66636bb8418db624726b0f1374f59eafb4d269ba1ed234d8;
 0x2b812a76ea526ce18df6032192ef033541aaf99d1c61839a0edf0336142a25f3;
 0x295f6d35fb9e57a50a5d913600538030ba8c09e021c16aa8634488cc8eeba645;
 0x1de69ba07e3b9f90c87eb67b1f64660c71befe5138061dbebb752296032542e6;
 0x24734fa363e52c64ee0162a86578ca899796e89caa1a3a3533b0965665208f59;
 0x251e7fdf99591080080b0af133b9e4369f22e57ace3cd7f64fc6fdbcf38d7da1;
 0x2d5fb67efe93e8386fac071fe3522be1dade9dbf1d1030417a7b51e3122111f4;
 0x19522e9228feae7473e317fd7958a021a0b042a81b75da6dbf7568b857afab75;
 0x2bc3f6f0df0c7305afe83fd9ef0b708e129fbe889fce42cb695b33b290479342;
 0x783e5635eea0e623bb8c406909f0db77ad4f9302d4828b51015d6512818690e;
 0x2d61b243f02e21edaed6fd2e4969ddb95a6d0da8db17d115a9a3b0d8885bccaa;
 0x55e1a09f4bd4809a86e67f99279fc06ca89a4468df1ea25d76fe0ad36ccea12;
 0x17871eed22b0cdd2de61e55ba5c9f4e37da63ed0376420bb1ee7f077a0d7a85e;
 0x20fd0af1329bbdd70d4d835d18c915d98956c5f0a4252cfb81c1fe02fe130091;
 0x251e7fdf99591080080b0af133b9e4369f22e57ace3cd7f64fc6fdbcf38d7da1;
 0x2e5b840ca8faeba6ec3613e22eb7b071d9633c83cef659ed96b2f6a8fcc6b262;
 0x5f5385703edf7c4a388ce585a81fe7cc92ff49e900b5601865a352c61d6b111;
 0x21e83ab5e95d369ccd30cc1c55cd5844cb1cc78ffcf0c8bc91c9c0d9937a3fab;
 0xa67b7ed9c37946306ac525597f1275b30a5d004ca50258c3d992284d90d724d;
 0x214f52f9f73a2c2d5425c9610461303d839dfe71891489c376c2ea3b5d868b27;
 0x241e0d267f7d1d899656929cdebd850f70ace216d9ac10253ab720bf40da0c7e;
 0x2229153475b7a6b282e110b10e8aed1fbc2a05a37352e954f40d85205fbd8bef;
 0xf30d0b7cd8ef10e895cdfab3faa4f4c1a61a5f4eba688634540619c84782d2d;
 0x251e7fdf99591080080b0af133b9e4369f22e57ace3cd7f64fc6fdbcf38d7da1;
 0x265589a340c71d49e1660d3dd43d1869408176d8b9110ae8c369078de8ff7aef;
 0x1bcadf844bd1a2e7f4f464991dd651b9f15630c94977d35ebc3e85801252ac2e;
 0xc112b1c56ea288e8518cc039fe050649cf40b7ab98de8fdbc56eb7ef6bcfdde;
 0xf020b9ef75af8ddd505cd3947e11a04270be15daacbfa76fa04d9005283aa77;
 0xa426601ce9415e666acbbaf2a7cc8ef7ef7d07538d84b1a53da24c19c601688;
 0x10a1af65503614381fe2003123aee9008ab97d69739dc462e72a8be04594618e;
 0x2d792f9fe5f0ad658dddadfe3893d158012d84b3837b7415e188131595b060d2;
 0x2daa42d04e0b62fcb3869031bf382c3b9f8a98f7f5bf7421d0b63c2598f5f65e;
 0x251e7fdf99591080080b0af133b9e4369f22e57ace3cd7f64fc6fdbcf38d7da1;
 0x144c0395157a1bfcfb5cc4187f271096784dbcdbfcb6a28c31ce8a06f908c0ac;
 0x1af8cdba0eccc83c16019622667527645e94c9ce64add4415df7f40446277a09;
 0x213c7a7ad6237e7211530c210a8d6f46a25bee433bade010591e6adf42fcd906;
 0x224f1ca24803c0119ad0e6c41a64968e064a83f5821972f2a5c9d5895da4ea42;
 0x10944d95ff5a3699efdde41ead13344937e3b1b93ba73a1531246ca4b99aad2b;
 0xcb2508b0a3395fabbeee5286ce5f1839c006ebbc09d94f475924923d8079ec2;
 0x284a14b1007ff6c5c0f8f7d8d0e4b19fe2d4a7094103912134b0f563a672acd1;
 0x2bc0bce43d55bfe1a27eed426980cf9055b0dbd42e8de516e77580b9d9a9060f;
 0x251e7fdf99591080080b0af133b9e4369f22e57ace3cd7f64fc6fdbcf38d7da1;
 0x28e9b1884a4619b38b6f8a384368c358b7f210f3412c4481a26ae296f73c5c72;
 0x2123ca1f119a35e7d4e1b323fd2942d12ed020ccff3a7ad6b65af90457f00614;
 0x4aaffb0ba008fb9a82fc0700beaab2ce39efa895acdc280252f01e31035b8ad;
 0x1f1e16f8ec9261c82443b9b31cd908015e2c2d2314629a22639af1f37e1073d8;
 0x134928ff5ebe5e019214ef937b7f7a28248285d583613ea2bedfc66b5e2ae924;
 0x87fc99e11e63deec9d55047ac98030c57a4f09228cfa7749a3e1c7ab5f212e7;
 0x9429bcc52d6c43814df5b07fa116f8875299500a36ef791b592a64e27cca486;
 0x2267b1dfa5d26e6f0a80bc8b4c0026f0204bd4fd06c7725544d7760354e401f4;
 0x251e7fdf99591080080b0af133b9e4369f22e57ace3cd7f64fc6fdbcf38d7da1;
 0x16fb3cdb76d21d3448c9988f428d198c8e5a640035ac2caff7aa7964b34ff1dd;
 0x80dd9d263a6698479df06bc98fc64594478028b61047ff93c425b29b092d37c;
 0x165f4f2d302a24eea5f46abeec4ab03d21e3d013865085e515bebcb2684af340;
 0xa8a3f3abf28f457c62045789fdcd302f0df1049b6ec521db2b7e72e8d9516cb;
 0x2342f103587a005c977578b12810378f9014bae831809cf7ad59ef3aed48aae9;
 0x1d1308e311e7ab846e158769c12213013eca377f396061aada6220f29eb1b7d8;
 0x2563949aeabfaa782be07dad903ebff5c913893761b75a3f8402a1e2bea5a998;
 0xcb371898d8d2e1f5bbc32dc21782704a73e415e0c9f6387157b48746bbf6ebe;
 0x251e7fdf99591080080b0af133b9e4369f22e57ace3cd7f64fc6fdbcf38d7da1;
 0x1231d40e7c6fe5bd47010ebe4f63d186369cdb6e8823aec194093a0b4cbc6845;
 0x18943696a4da551747068255f57a0437ba0ec36ad7e5c92cbed9c49a9775b97;
 0x1fa58f378160dd4af40e3b01bfe32dfd34f2cdca527973c194a53af30bc40670;
 0xc976561eeade533c5579041bcf5e8272e4af95efe3af9e5372250fdc5ad8966;
 0xcacfeeae1a8359ae9fcf831f315a4b8c576d579eae86b1b09823656231d3bff;
 0x109b0647298eaec354e4a155308192b5facfb586bc2fe63f073cd221a2106fb4;
 0x69d4744aca289d123baa0e6754c5232202dbcdfadd0ee8d14dd19a7bea39781;
 0x156195fe27df23b8184fc58a30e1a9bafcb9cc9fa9ce071163a26dccfb7c6ad0;
 0x251e7fdf99591080080b0af133b9e4369f22e57ace3cd7f64fc6fdbcf38d7da1;
 0x20fed35942cbdc86df51a49ca26055bb25e232a42476ef06997af8911560fc12;
 0xcf20343957a55345423dd3450c2fd74039f1a82c6c02446dd64c4569d31471e;
 0x1e177139b05dbe38a56c40f919dc1f07126bad03049fc4025d77b4bc34c25ebf;
 0x144d1944a849fdc2aba8ab2a4368d57911e9614e3956d9326ca493c83050e932;
 0x162f08d305fe4f1b0a9bb1acf1223bde3405aecbf2356508841b85f1180cbc1d;
 0x21d68868502ab599c7c5f2a54d65be40ed5caec1613a98b2a98c5f8117415d97;
 0x984adb0c5263193be4027c68c6f3a6dbf7e22cf199dc4358b52968b0a248789;
 0x2883f3a940a8c10f7f347a8011b0f0d7f6e0a4a82eff568fffc7524235d1e4f3;
 0x251e7fdf99591080080b0af133b9e4369f22e57ace3cd7f64fc6fdbcf38d7da1;
 0xd89a340993be3d3ba07d2fa8432d412730e8ebf2bbfacbf9378c0c4d3d1e692;
 0x105e4a12836770bdbab24c85e7a63572c77556fffafc8f55a0e3f6e7383f7b02;
 0x4b09e851bb6dbbffd0780af3f99cbb707f5e8a073810b28b1b59794c8b117a8;
 0x2c8031907c10e1df2bfdd2589dd502a012a2292202e67954091ca57d21906d41;
 0x88a360cf4c5e26faddcba291dd2553906abd82fecb0ffaff4f3f544f672d703;
 0xe9e8d8ba62712e7f95840b5651f32912e84f146bbd57c566c178084cbb155f8;
 0x38fbaea7dd737c642ec414759bdeca4250d31d6011140e7e45e86c12c6f6fe2;
 0x96dea6e0d6411dd0c18e516511b03d8506c4901c52dbc2772c3d47bdbf461ab;
 0x251e7fdf99591080080b0af133b9e4369f22e57ace3cd7f64fc6fdbcf38d7da1;
 0x2d60fb66fb133b0507b6b41ed7fbd5278c4ba9fa0679d2889da9672d21f07037;
 0x2567f444cfdbbf4d7799d5b50c8c582e1d2038a11969b3eb2b60aebafb1efc7b;
 0x2401d941b4fafe3311bc6cd9fb0bef62ad9b59e731c1ec4e6b0ca5e2c685bb2c;
 0x28747741579283853ed4e6525da70a4312769f7040db4f098eb7d9214fc8fae6;
 0x1104899fde3f530cf99500f20c4fb9d479e512cd70a15def442a4ea92bcb9743;
 0x4ddfde1b1aacb33977d4b3020db51b834f6197a18505e3ccfb37fa8a3a8764c;
 0x2bfa6913d62c8aea04ccc3e50229220efe3b9af6a568194ece56c065e3cac8aa;
 0x5cb914ec7b72436cf25adcbd0550c2db3c9c09aac565d46f96ac156fa72a90e;
 0x251e7fdf99591080080b0af133b9e4369f22e57ace3cd7f64fc6fdbcf38d7da1;
 0x145dcc8a89ffd8fddf4e5bbe377a3b7649ab6faaddf5eb580ced3e0421b7077c;
 0x21f1b7c169a0744e49718346cbd390dbe3287f5de3897acdaaf2e4bbc1f3e80b;
 0xeeae34b5e8e48d2ba6bd062c803ced1dd1165cce5f8f0574ff7caf4e6eaf6b4;
 0x2827170c30a7f570a12f37aa0434e01a4aed9b5d37f1815029d5de89a8ff75e2;
 0xe328161a29c0376af526c8004597fbe018328d6d0c89503eaee36f59a4cee8a;
 0xd6617ff29ac941a779f907e749603cb36778fef6644b8684fa40055c8d978c6;
 0x169506e0877092fdef32109c064d251c4d6a50257ab9c032bd79801fa23094ba;
 0x8c516740479e1a852294e8cbbcbf83b4d7095b69758aaa9f1a368004dc1742a;
 0x251e7fdf99591080080b0af133b9e4369f22e57ace3cd7f64fc6fdbcf38d7da1;
 0x281bcec4cbcefa9e18a1aca1dfeacd7f7ec527df5deb6c002f541ee4c0f2bcda;
 0x13ea58a6a82bf43f6d4c2619b87da0ce760410b68b77f694685e3f34ff47b86c;
 0x1ed604569bf581c71e4180d59a78dd48e2103006ac045566e44162656c36080b;
 0x15d25d19f8fb93c9272f10ea525e787c758f98c5bca884e6317ed21a292abf6f;
 0x1696701143abf5794f370a122fc60dafa4f0c241e8607983222bc72d1d8d1439;
 0x1471c9bea5d880676ffb53255487c1af57a0476b77eba56204a4a3780b109b50;
 0x1ec18e953909ee6e34dcbdde64fd6ae8b99817ffef4811551a27924b714cc00d;
 0x89ad915c65eb1cc1633229dd97f098a2f86e7ea44ee6d94f3fe5f08682c807f;
 0x251e7fdf99591080080b0af133b9e4369f22e57ace3cd7f64fc6fdbcf38d7da1;
 0x7e3bb22a5d8f517b12b42d68ab707d809ce83671dd9a933313d251889a9d55;
 0x142b4285cb7ac7249975ddf59d177aeed1a94e0412002d83861ce061e3f38621;
 0x24839c6f8fade0c2ef1e248f64c4d81e324caa4ef4052916a31c5d1da484ec43;
 0xac0879ac864dc7bf40955a3f4a19cf37846fcfa9289ae59c8f8c7c174c5a57e;
 0x44832eb1eb4ac43192406deb4a37ea61e2d110468762d3a31f01f3c6c1f8208;
 0x2b3f948fb289860a26e995d14c6f8aba2089511c7ba58a310e6cbcb533f2dca2;
 0x118bfa7e2d1386301f187c1b1eda2f48c0a03de15e370b5be0f431a0b574681e;
 0x1399fb352bfce7874d22e0fcb24553b96ab59b85364c0c3c9b0135d4970c2349;
 0x251e7fdf99591080080b0af133b9e4369f22e57ace3cd7f64fc6fdbcf38d7da1;
 0x2f25d0089300da1d286c5efcc9cf22d095af8f615b76cbee09b9ba651d737311;
 0x84eaaf7a0b07cf4992c7d05790c42cc742a7bed021c48f614b988d99f141e3d;
 0xcbb53527ad34cbd3c4d59504fa47c87eb5be078155e58ac3f1e4b3f45dd1cec;
 0x14e8e0d80d2af6efd3cc60741cbc21f6da3a42e2429322bc209097b1d22d26b4;
 0x149dc605f3ad39d4b470a132191d2739df2ad19fb71e067f6ede3f9da3172922;
 0x1533cdda4fe346f0a3e538172b8d5636d3b4b502047cb268015b2088f12b9897;
 0x1da21ab47505b1ed4358160f3cd24a01330718bb901beedde8cca37839805c62;
 0x130eee6229e6346096e121bda6bd3892aba85c363deda16ae8c8efc6ba721b18;
 0x251e7fdf99591080080b0af133b9e4369f22e57ace3cd7f64fc6fdbcf38d7da1;
 0x1d0669bb3cb83ad8702a76855510918ef300df2416cdf04a83061a915a6fbdeb;
 0x113f0f0db699267055417d499467b7502e23179a0c23787b7e8130967c95080d;
 0x28cd66f5e2046799405a9c14282070ef66fd409507971fcbac16032499bada61;
 0x230173d8146362d28c0cc9bc2c72a64afa7741b77653726017932821c1dc9502;
 0x4b23de911f3a1d3f32366c35a7f293837e1e7e8287b8abde423b2b3ab81c187;
 0xd4bcdd5ff441637f977dba6d523ef1f6178ba245cda76e429a91b0ca994db04;
 0x93bfbfaa8f3a8718603066321ce48219b55558f33e0f8645a93a41e6f4d3e2d;
 0x24e21e25f0b3d0e754bfd0e91e62b5fcd232e756ab34cbed6b4ab709dfca551a;
 0x251e7fdf99591080080b0af133b9e4369f22e57ace3cd7f64fc6fdbcf38d7da1;
 0x146990fff0e10b8d70a4411f57f9e74a03d2ac0127b216400b82c8c644038303;
 0x1ddaefaba77bcd9c5ba0671b0a34a4cb37b7c689bdca187d90212f188ba4a87c;
 0xa7c37e8eab27e5edcfc3d6682b0267e3d9250fe470980956f5e3e5993ddaaaf;
 0x2d81f6984b67d7cc74b35aa9d673878f05d517085812190798dd24a510b8d6b5;
 0x7c46458e45e15ce1338bbe98ed3c0726664d8ae0c965bf0fc79ae31ad04a349;
 0x16dd83567c7289d8ea0e62df8620df74f3c987d5f162b6b0a24ab09837b5d2da;
 0x21819b9d78ef5e05c535a83e7d709f80f3ab5e8d733146139015ec4e34b29f1b;
 0x2340a29e4e4d4e920f39a6a32149b54307f918a2e179e6c7288cd02834c0e44c;
 0x251e7fdf99591080080b0af133b9e4369f22e57ace3cd7f64fc6fdbcf38d7da1;
 0x1ced784118aac9880c9fbbee28972453b36abc3d967b20e9b0a886af86d64305;
 0x237848c6b0c87f794b30cad5a3cebfe2c6c9173f7a258f4ea139252338a3ea5a;
 0x27c636aa956756d9ee04b355abe2fad8d703b1721fcf73b17a77751813c8abb4;
 0x1b40358386698e21d43bd3950c00f81d6ae340eff9ac0821a213f8fabd142d09;
 0x695487b95b15feda7188ab9bd8072f0edfcdaea2dfbe06596f8c037bf52145b;
 0x1df336831b6745c8f22a80c252ba12b24e2bb1e7fd3615cc96145d898dbf3220;
 0x264b7a66fcd41995c19f021b71fcb1abd59986c55377a82ad92e79a1165e58f5;
 0x208defb2122d53224aacda9868250ca3b39f78b13c9d150a14d75a886a1a42bc;
 0x251e7fdf99591080080b0af133b9e4369f22e57ace3cd7f64fc6fdbcf38d7da1;
 0x1627fe11fe92ca5b0841cd804a211151ca6c0d2706b2a17ec17a7fd224a48a13;
 0xd483b82a1ed0d6788ec73c257cacba9738eae7232e365df112b15a93459627e;
 0x24c490612a1636b43f902459851afb3cfc37d71db5e9ffd247116d5cbd34f9fc;
 0x2f2d08c8cab748b056307066141837d5cf195104459a91084768548346c8593f;
 0x42d3a4f87d782326b0c097a03de01ac1698954c8f300af708fa79a92e84790f;
 0x2b064fb3fabe9deb1593d253ecc7a12fcfae3193e8f7e16ec563876f92e4c62c;
 0x22b8060d8bd295c3a201655ef3891a481e21748554dcb7613ce6c0a532628e5a;
 0x1526148f85ce610667aa96af20059f0b02c8a9d4d463b27f0711db72a545503a;
 0x251e7fdf99591080080b0af133b9e4369f22e57ace3cd7f64fc6fdbcf38d7da1;
 0x12d2a42d255875bd671d376e499cd79393db48c414f967d53388f60b4e180986;
 0x22d0f27c6767b64adf2eb09ed595e2f2c211a3504a8de66ac01991c81c0e2669;
 0x1fbcdf3ca6f2e0739b571248a9a994ea913375db065ed255b5eca3fde587dc91;
 0x402b7640d18feac0c700cbea0d8f527a7c3fb44a110c4d7cff21deae9a70e40;
 0x27f6c76f1b519e71c3888f1ece7cce4e0f99f231ddccc7798a31b0dee0c68206;
 0x2fe908cd208699c9d8e3b0c09f5c0fd58716d0eb50017aa7d12df08b53d963ff;
 0x1922a59ac83c1e2821afccf1610aa5fb0b3cf8eb3fe3f4957bac604c177fcffc;
 0x126fc5609db3cb254a05919034b8a7f9a0f85ec5abbde6f85068607250ea0ac0;
 0x251e7fdf99591080080b0af133b9e4369f22e57ace3cd7f64fc6fdbcf38d7da1;
 0x28db35e17bb31e5be954d69f5bf8f6838651bb6f5c80f750b6b7017643b6c28c;
 0x26dd684288015065728c5e09454535a33e1537761d874102bd4ecd2baf40b384;
 0x1895d33a312becc17090e45df74981b4fc4b220d3aaa346c7e8485311cab159d;
 0x28bff25eb0f2a5c6d007a92a7c4d88bd9c12c5622d0ecc5a509c404048b7b5aa;
 0x130136f07c7e09acd49556f3a6bf0739c9efc0a1be738453af67b31e845c976e;
 0x259c455761e6b6420dadf3d6b64eb65493f989fb3e5698e7307a6d6075714ede;
 0x1c9ac464fb08828d02006c7529eb1e8f45eef54405ed2cfaa133bd697f618929;
 0x60abe65207efd0fda7b24719d35018f7607dd732e71c05077148f3d046dd180;
 0x251e7fdf99591080080b0af133b9e4369f22e57ace3cd7f64fc6fdbcf38d7da1;
 0x2a41f347b5f6eebe8969667071926905a3e6e521b85a89006ec2f500ef42b000;
 0x17840fa3a180177731bce340ffeb5a3b6a68b94e3f870501e787edc5a94db63b;
 0x161ec94c3f624f928eadb0e2f2cf6b16430fba680a5a50590d89005a688d9b18;
 0x22d8be171b4571fb5b773c3a548fbb286b06e2701ce99b7630866e1bca6e2cc5;
 0x52464c9c7ad14525380aaea9b06e76f03db8edd220f90b03a9feef2fecfb978;
 0xbdee83b20d91ff9a0404d8b0593879c90f7be5a95a22c8e1b157d92c3cf4746;
 0x2d84235b4f4e04262d8f246123b8e631ad51a4e1051f41f1c89cc42b61717302;
 0x3d6b62f816bc4b464e2971cc6a7c1a585e519266c4627b1367ce7963cf93d86;
 0x251e7fdf99591080080b0af133b9e4369f22e57ace3cd7f64fc6fdbcf38d7da1;
 0x16caff6fcc165168b3ed958d3aac8d09f98f670bdbb847ec0e9083a022d27692;
 0x2cd4beaac59c5306bf76ef7e06c81adff6de4bee730cd4676e966db45fc067d4;
 0x1b11abd8ee736830ffeda3782fc7a82623ecc5afa92c0ec9eeec58177ce8608b;
 0x2c80d3430e64bf850c9e10a22f6b781fd513af20d4705435bc870ec8cbe93cee;
 0x2d2f20d2ec0e52eec9fc2d0e49fef7a2454aa77a5055ebfc4d4449e8f83bd015;
 0x1e51c55a8d7a04be4edae4f7dfe6137e96370ee2a4ed459ec524b19de646e0b0;
 0x13d4327afa809e26c8f97e36ebb5be1d3992ec72d459760bbd25659790738f43;
 0x176222f47d8c0ff9e8a967920376793dbdb9dcc3a79b44fd25e1f43a755e6b81;
 0x251e7fdf99591080080b0af133b9e4369f22e57ace3cd7f64fc6fdbcf38d7da1;
 0x5193cbcb59713c78012ede93db828e69336a197fdd30c6b7d03b1cfcdd6adfc;
 0x2bbe660fd34f6ac3f2545cba9f717d2eae9f8c60242851657f8661504a457c69;
 0x1fe59c3d2724f4158483406e6cd62aafa121c451f13e48ab3c857b2293333c3b;
 0x249c893f9de208601de45c9769ebad071eb864524003add0bde31fef7f4f91a7;
 0xc20c4a12bbd772e0dbb929b69b24751da26b0fa8639005ff786a25ac1a5fe96;
 0x1a0750fb1d27bcb326ceb3a3065a487cf7d513d8954f31dfb174fc5ed95ce55b;
 0x16d40c0ba7a7aa232eea997d45ec4f0567fb6814677b262aadfaefc91d409cad;
 0x25ccf860fc7237cc8721aaf1c717190db40ccd65bf65d108b16f851cebca736;
 0x251e7fdf99591080080b0af133b9e4369f22e57ace3cd7f64fc6fdbcf38d7da1;
 0x1a25b1a6b81926e968ffffa63979c900c1e82452c986ae599ef991ba214e6f67;
 0x2b344bbb50400ea76151bd0b68c3139955f101c701d32befddcfec1ca72df25e;
 0x1044e69af594eca5f9ca7ee28cc38d161d01037fe223412e2f10838bb9ffd1e5;
 0x1145f6f783af7d1e0ee3388f107ccc27609bb8314bce27b03dbf8d02843ab2c7;
 0x20ed7009a6093b160020318b0bbfbc9a9d14de64a3aa25936ddff0ffe3a3bc4b;
 0x24cc5ed4ff9d84fce95c1508e1c7852fe60a6def592f423bb79c229327be7627;
 0x1fc31b0e67cdf9efa9c0c312afe54b5158ada1511719c76953587b772f1c830c;
 0x1faf997032cbbadc0c6d30fc804d068faeccbdf7cc90155395b739e017081259;
 0x251e7fdf99591080080b0af133b9e4369f22e57ace3cd7f64fc6fdbcf38d7da1;
 0x1197c402e5f0a49c8f9b9a41af6fbcd013cf9adfe864613c1bdecb6201d9651e;
 0x3025d698462f4cf23c7d4d8a3eec4aa8e1a2184a43020122db653afc6d0deb4;
 0xecd1d402fafa3602052ab586f804ec15f1910542f35c608eb7a247d5a960cc9;
 0x30021619d0c0b402b429d4e962cc3c2a2d00c62c131144f7b3d7f8acae6975b8;
 0x2bcd05e889bf0fcd9dc4f5faf21c506cde15c316aaca47724e71bad0cf34b27d;
 0x1b890b4097a781900b40d9c1ffa06a5e8cd05ae8fe52e040db0e7085ca46b460;
 0x8081b53a974ee264310b279468093218cd5e5edec1b7da6b21ab35622242e48;
 0xe6632e8ec976cefca5b164e6c07ab40ac611fc723e8d8a14899a4cf4be3b2a;
 0x251e7fdf99591080080b0af133b9e4369f22e57ace3cd7f64fc6fdbcf38d7da1;
 0x63a3f8dea9d024a6f6a851ecdb21bffbfe259ac17f6793c91e73823a82f4f76;
 0x23b2c6ec9af5d0188e75baab9990f663f8e929bcdac96cc09c4c0626274692a0;
 0x9a41c06730fe53d395c602113f1607fbe01425190d50d56e9f215658ad128cc;
 0x16571048fa92024a9345a0ffecc159e76602455a71bc7e9c9c01dc50d8aa1d6c;
 0x2a5a7e76dc76ad78878b3d3b4c74995e2ce77bc126e4d17db507161b049eadf6;
 0xa23738e129c11b285d81c1c01e3f87989c87600727e7593af45607f98fb18eb;
 0x2ce8d6eeaf4d6c7ca0922c4738e81dfba227e98fc3ed24e7696ebe9c2732a1ff;
 0x22e3bfb13d10368cee5175f5e2a2cc205d28021caf5fb2898de2389123178a5;
 0x251e7fdf99591080080b0af133b9e4369f22e57ace3cd7f64fc6fdbcf38d7da1;
 0x66c43e71903c5b74ee8e90ec30a1d8cbff7d8c85d3c7b995a976036eef8c4b7;
 0x2fe5dfcdc9335f0c0dd3d08f4e783a5ff6c2e6fb7e2928840821e6da8d91570a;
 0x9accce03257f967a24c11ce718f21167d9d71a1cb60a4f50d0228418428300;
 0x224e2a85316b67bf2dc64549c505721a7858438a00e793fe76b961bfbfb67291;
 0x29f1447b45128f5c1cdb12a334509e0a991c0d2c9360a5cfc28af420c2ffffe0;
 0x1301ae5665bd3e87cb647f566ebcf2f2eb5bec4b257a77061a15dcc7b8b34abf;
 0xfc6599ea957e02f69b1ca585c7135425a6825867d0cdd2b06019f3c9398ba4f;
 0x22e91a30a945b960bd87d7b0d8290dcd5f5b1caa339c41aef323be1ba9c724e;
 0x251e7fdf99591080080b0af133b9e4369f22e57ace3cd7f64fc6fdbcf38d7da1;
 0x1c7c359c26eab655aa469e0f9a8cc3d8c7a8149ba9e9baeca9233b7edddd1d24;
 0x1ddf651a5d396b680828eaea1f252625db1988504765eb4aeae3274a19cef175;
 0xab486e3e737f40898d3fdd6bab09213c0056c2e090a90acc754574739159385;
 0xd0b817b8995913e3ddd08b576951bd47b45f536739fc9cc782e769fd17e0028;
 0x13471abd3a25160947928376fcd79dd5aa58672f8382745e3a040c2acb464974;
 0x7bff672e50ff1f20296b1838e5270229a7477110d9a7fb56580371ee4ba38c4;
 0x23f91ef1b8182e80c8a0f54c3a35ad51cb9a3bb61b07b3e34386f16f7f4b32bd;
 0x16c390b3fdf09c6c42e50b66557532cc5998cb5a8c15446d31813e7b70607ec5;
 0x251e7fdf99591080080b0af133b9e4369f22e57ace3cd7f64fc6fdbcf38d7da1;
 0x1976d21aee74f79c60d44e46029a5b04fc03ebfb9bdb09a0b5dbb89f677cd296;
 0x56e7cdc08bff8d8bc12dc72af3c84858dde68919cd991bdf513656eb0a0cfb2;
 0x22b7992d7c0ed349aab7531de2f12da4fdcf961215ba06f2b7577f5d42bfa85e;
 0x10f97fcc757a0d6d0d4e2d585ea5968b3faba9d6458d16bd366d081ab65ae95a;
 0x21bc046c3d727baf6e65b568653a398aeed8c95b73567feca3884a051ac001a2;
 0xe757fd0b77219a771723e071c9896062eedbb3da05cda25d39ead3cdf738491;
 0x1ed536c497ff36f612f326f3d03e97d30abf91605ba686af36ea04c19cce4f4a;
 0x2491340ecfed3f98ed6fd566034240e64a08e5a39a468c78b31e4734a679bd67;
 0x251e7fdf99591080080b0af133b9e4369f22e57ace3cd7f64fc6fdbcf38d7da1;
 0x144b73c6f361a4c232674a08616b36c33f7bd667dcaeec35530a2e8fcb66103f;
 0xb244143540a248840ba5fa161cbfb2fb2dab97332073042cbf8a932144d27b;
 0xb5bedd8122560caf5a9dbd69f82f7439543bbad397d7cfb4ef7782f64ea4e12;
 0x1386c7e88c5c0bf880b28eb2735e221c2a88e7f871ca5d720c99b4287c528a67;
 0x277164cdc5187613b0a6d6450b56cabfc828f20dd7d07611edccbfc3d381c9ba;
 0x16bc97ee1ac4b1cea8f96e731dfa610212aec4a193015b94b0f2a1657d41f13;
 0xb341e4361f31734af9951c20a6aace08a3dc80f57379add9693b56b047b3480;
 0x263a060ba49fe4862df997994261e665c0406642c669c32dee4ae7a153fe1dbf;
 0x251e7fdf99591080080b0af133b9e4369f22e57ace3cd7f64fc6fdbcf38d7da1;
 0xdf811b70cab32c0ad0aacb576fd95b23424d3686d79e36feeff21d1aa047eb8;
 0xafae979e41c0cf7d662b4cf09e93dca70c0945c6759c4f8d2c935a6084eced;
 0x21ae12f1dbb152c33213efe9cdb6044574b3df8236be92341131435152115e5f;
 0x272fd8955a7524a09f77c28ce89d58caf7d883f9e4503ad6a37c0eab6bcbe468;
 0x3712cabfab0f6f3d23ac7beb815226883f409d60d798242c6d5e9dae8178fa6;
 0x15bc41d746b14885ba93dc7d00594ea2f174b3b3dbc1acd774335405c18b154f;
 0x9dded6d75c33754be1c1ebd2dbed077c1f1cb80938f0798bb2e25b054a52962;
 0x1d9fd7f273e141e48d7ae825a6d7758e351d80c4ed50139a659d52edff60d227;
 0x251e7fdf99591080080b0af133b9e4369f22e57ace3cd7f64fc6fdbcf38d7da1;
 0xca2cbfed626671d6e0f2e3d1b6b2ebb5e9048c2f1273223c34fe599429e1f2;
 0x1e9bb2efac004014858166710da5d764ab36b80e4e97500d784fe5cc2326fca1;
 0x23f8af81b77d2f06d566eb0d9096c4b267f498f92bac69d622dbed85bc8a8ada;
 0x11546811642965c71b3865d830809b7f402e02d1980c3219c4bbe48e8bd37811;
 0x2b872c434320ac521ac1e14867c05d88692de6ee063f402c28cba02adeaf9c51;
 0x1f80e8d09a04ffb20613cd83ea35fc1593f9a5d8db6c846d80dca53cd4ba5a94;
 0x117c4e17071565b51a2b97908f375ca0194dd595e9e873e8c0a158b59684ac70;
 0x14da94b9be3adb3c5f7cd04dd5c58f63e74245d5a1e6fce5de3d093d476f08a4;
 0x251e7fdf99591080080b0af133b9e4369f22e57ace3cd7f64fc6fdbcf38d7da1;
 0x2ac96264771dd5b1762078d5132db23febb0d2edb19c7b24848d4b654e9ce670;
 0x5a23e8be5fe8e01b11d0c7a1dc85c909602604b15d620c7a51e2b017dd63830;
 0x172623676d3d38b2c68ba2b30c12c5818d874d83a98478cbec0b1d27f5dd7ece;
 0xb632ee1e8730d509691580805b890371ca2d51bce083faed1615a845481de7b;
 0x2a220ef566e4d54373e1a095231c10905a2f5e72edd2b6259b46ea45749203ce;
 0x2ebf4340ee05460d8298d52260b4ebae389357bd857cb638c41b2708cc333dc8;
 0x27e873b1750916366d2e7906ffe4f42e6dd7545bf534adc73a02b7410f7f8275;
 0x1ee70cb51ad6da4513ce42ff200e46dfa39992a90447f1004765711f3f5ad52e;
 0x251e7fdf99591080080b0af133b9e4369f22e57ace3cd7f64fc6fdbcf38d7da1;
 0x1021282efc84669e4a98956e30ad0043c6c19dfeb98d6d14bf027bcfa555f8af;
 0x1f1c2e424bdeadd277162d70faeb398d661225414a975a59be613e47274b73c3;
 0x1a71e415abc5ccd5bf268130070e89b1e61981cd54f6e5864b8cc4e1d50bb21b;
 0x29799820e28bb9c0a7bd0a2c6d6105e5c91f8f88b2823da7c57825067214dbb6;
 0x17377cb0195b95b473606c81a6bd5c807b22870afa6cb230a1048e9515e31db;
 0x2f73cf9f22e0431d5e7bbd907ebeb8553b4117ff1fc50d09fc7b75935ef41251;
 0x19cd57e77a99328260bd31fb993e7bb3fd27fdc21b2187fe3a4bac0ad664719c;
 0xd5ff1b6b5f33d6d568d9197d0df40d07abede20ae3a94a0292c01c304012713;
 0x251e7fdf99591080080b0af133b9e4369f22e57ace3cd7f64fc6fdbcf38d7da1;
 0x26c7615e04be2355af0773fc0e025f86baab5f59d834ba005e099d95331d61b0;
 0x170ea6732c6d1b2ce3279f2d4990926fb8d279e4864d966ce6ee6c319739c2f5;
 0x2f870269a506f351fb0b9a9d677bad1bbc5e6ab40ff0afc1772f02ba395fdc8c;
 0x11986790a1cc239c92bd4b8d8a1b9baa76e1e49f847f16ede5f6398aa83e97c2;
 0x2510c2e5a39cd6c243ff590621941b221d2a2c5a79ed6e5bb90eb1008219239f;
 0x1ba5c05a828609b93a7e151338699af0b8b0aa96d3d5cc9e7d3785333fa03dcd;
 0x8648c03bd03b5f4dc3868ac1c47363d90010b9cb19933554fc7586b97b5fbda;
 0x69d0c72c5880618f66ad58d65f09e5fc488697c71d92135be291f55d496cb7;
 0x251e7fdf99591080080b0af133b9e4369f22e57ace3cd7f64fc6fdbcf38d7da1;
 0x91acb34aa0d03afd0ea47c1d56965a9051b05eebff9af71e07c4554184f462a;
 0x2b3f75e8ca7118776d9676fe058565eb99b6e99bd23505a8fefc927e17cf5336;
 0x16d9ae82c0073fe1dcf35384c0dce87494b2400f9027ce1e64ee440a439fcbaa;
 0x2a11becd9333eb48f3027ad8f3c24fa1a0ea671a1020278ad84c863c322e8057;
 0xd569be295d5e44ccffd9d3ba84aaf6a0c178e8639689aa6c57214f00a6a9d90;
 0xa66025e45040fd45eb136eccc63e2d7fd237aae9b62e2330aaaa0bb44dbef48;
 0x2cda68234c7e22d8fd725d952d3c529b6997b68dc02065f6a047b6cabdd29e42;
 0x1f9ab3e8029afc72f56af02ced5a6b145ebc81444ed12e82c7ea547e9ad23650;
 0x251e7fdf99591080080b0af133b9e4369f22e57ace3cd7f64fc6fdbcf38d7da1;
 0x18a2e32bb69277e0f5e82c2a60a008b3db5caf3c53a669215c0b3493b73c7138;
 0x224c4f2e98b4fa10d4ddc83f26ada461e5b4f412f94a1eb153be707470746fbf;
 0x1b2a8787e954d981add1b123a6f6c100a609e8135c0781ac9a1e7e326c4b0f4e;
 0x2da288c34f32d86d5dfc0b2dc9891091d396d36de9f70589b7beee769a058622;
 0x2e24d351b0d0e94f3e0f83eb60f2d476b8b64dcb47674290e87b27eda7f20180;
 0x14af016f9da2f982e82aec1ff6ee809445db2c6d85382f959508a31830dce9d7;
 0x91aeac9bde9ce64a54cbad523032180c2135b51ec4547ebcda08824bc9cdf9e;
 0xcaa07eac62d9f07c17f63f749b7047eaa1adda97f5716d76f23affd6d845dd3;
 0x251e7fdf99591080080b0af133b9e4369f22e57ace3cd7f64fc6fdbcf38d7da1;
 0x554f06e31b164d9d7ada3e01c4bbf452fdccac121ca787b08ad50dd2928ed42;
 0xbf8f8d7702b1e8830bf126dc420158a624359067a0f6385068390b01d176601;
 0x1604d181baf488dce4f99bf63c065ed934ee29f0649af4dcc9ac2a2887e8690c;
 0xac951e2944f7532d4ddce72d31c8e91c0795cdfab82df338f172dd9bffdae43;
 0x24d53d9f665348c12bdc3425c2b83e24fbea3b66b0c9d119146ed5d5a1d1e9f3;
 0x1ee01a89a7ebc6b8e93f2ac2e60b9909e3e3d855852e0e113a72a118f56e2da3;
 0x2b78c3171a3c8ec6231bb7c208e5b7c2c90a85956a7f2a1f763cb6c883059938;
 0x7ca1e306d90787461696fc7e4a3938712312494329be76c8e2b402cc0d617e1;
 0x251e7fdf99591080080b0af133b9e4369f22e57ace3cd7f64fc6fdbcf38d7da1;
 0x1febc25f88aab92179ac3cefeea663f51562f6fc631bb236c04f5ef85b464784;
 0x1b1b065eb60dbd39a34da94414fdfa4415933a6bdba5c2de470ad8ccef1b28fd;
 0x60fcebd24cc08503ac4f80c0ffb87d0898f34bdce41420e84d941b5f7d352a;
 0x2a7b16d282447357a66d83fc5aafab7d3edbcb3f01105f193954c5ed496ae165;
 0xac39f59e76b9e296ef53921ae0436ab01217493f948bf6eca12b11ce46678b5;
 0x90b38aaae1df1873784a8966f1f62b68bbd93d34b0f4c637e208f9aeaedfc26;
 0x1ba601baf813cb2d40ed5674747b9e3d5760143501e0f21e31a7dd44b7135eb8;
 0x17695ec6204f10059ae5ca72c1332bc882cb7b4e161accd1ba9ef760b7365d5d;
 0x251e7fdf99591080080b0af133b9e4369f22e57ace3cd7f64fc6fdbcf38d7da1;
 0xab5930a06bb6b9a78e664dc5308da0b64d1e09e6c69fa583bc737245c5a469;
 0x16ab9a5de48bf089fba600dc70d2790ce0e8f79c1430566802f97fee43bc4e2b;
 0x75df7d5cdb7ccc175462dfad73927bf5a5f465e15ad267930c5ec846f42ae5e;
 0x23e4a7be74d0f0930279585aeaa432b5c28a4a2b21e3990aa45b5092f08d48ed;
 0x298795a8af97b8b3d378279e60b276b95227e66d74e2dc66cffa1c495af98c25;
 0x133d1455b6ea278f4acd91c65906bf75f2c90e41cdbefc2721b1e96adc5eeda7;
 0x24b722af1967cddac6a1745b71aca7bac72d436ed464e2b8ce55aa2ad5ff3502;
 0x276cb6e59cf4a06ff6775a537a4b04c6b42780c9c98a51ff634804b23acfac2b;
 0x251e7fdf99591080080b0af133b9e4369f22e57ace3cd7f64fc6fdbcf38d7da1;
 0x1044b0ed6b39096c0ff4d292c18632c909d1519149139b1cd192de01485dce3e;
 0x2dc918abffffceeb34cb17a8cb532f889d7dea98e9ad2686ef8e30936ecdb03a;
 0x2a5030937ec5690d090ad8b3d897541ecd187d2ee126fac5be6a280fbd4aa465;
 0x16961c105f85925010e0fdd445ee840dbd3370aab933ccfcb6e4b24a8826037;
 0x17262da0f8e41b6c42707dfbabec1d9f79ecdfdd25a32c2a640d3c5a4a3e8770;
 0x59935903a135cffc7c5e8cb06de7a0adbc6fe4f66b07a74172eb65951c6a345;
 0x1ea2228bc5f09dadfabf025e3d19db3cca4e448e60f2973605d2559a27b3bff8;
 0x1e35c4737f19de2debd3760ddc81e1f5857a01c42c86f4e264ba323f4165d5ed;
 0x251e7fdf99591080080b0af133b9e4369f22e57ace3cd7f64fc6fdbcf38d7da1;
 0x5958875cfb17091058a7e29cbfe20d0d242ecdfbd3635279cd1e0c3a1144dd8;
 0x19fd165b2741329dc18d2a5b03d7b58eb3dcdf2c2b0870731a924387139033dd;
 0x11cea375386801203c61577504cdc68493716d023d116356def9ad9825be5887;
 0x2e911408231ad83ab40e44e28ee0b017a82f7e080a0d4bc1b42c52e9205ed13a;
 0x9d3f08c1d2cd4de393b703a7dd94df0540c91b59b288df6c1ad8ba0e51f179a;
 0xd8bac92c12807a3fb4b20ec11e083a88b953070c08c1ae9be28c80cddb29a50;
 0x22829b774491c0e3add8e7d2de8096cb55a1009ae9ce983b80c14972bc68b84e;
 0x2aec91a87a1731f6b2f534955aef3d09ca7e2ee2dbdb5e9a0d15db232557c621;
 0x251e7fdf99591080080b0af133b9e4369f22e57ace3cd7f64fc6fdbcf38d7da1;
 0x281ec503552e6778fbafd7270951cfef153fcfeca0517410e495c62b81655f9e;
 0x98a3183f2ee18973943856c28e0dceb4392af147ca8b528ebee97577178bcf1;
 0x794a78e51b51af07808b643ed37bad31e6d6c68e5ef3171dcd06de598c6c29e;
 0x214a19348cd7cc8b1f985287e637e7987a3bedfa233f98dae9774daaea42fce9;
 0x130acc584954a9048597bda6395bd25ba02fce56102928cea7d5a6f520683ca4;
 0x1d09e1227434a4bcf72d8e91f5419ffd6da212a1d1ccb2a51b03e80aa258243;
 0x127397f2b156ba00d83847f03dd242007faf326271d0e2cd4f6dc84c961b19a6;
 0x971a3d373d35db8f181e0d7b26c33cff17e533e8f560d844694f853e7197e47;
 0x251e7fdf99591080080b0af133b9e4369f22e57ace3cd7f64fc6fdbcf38d7da1;
 0x241c8bcc463ac96e3c1cc240ce83c44edcf9c781e258a2dad09d1976d9dc6dd6;
 0x1a0b489baf0a182599f458897aa340e57986dcde7bfd34738851092a75ae6e0e;
 0x102c886ce6381276fe52d15c51dbd571e94904a8ec4d4445d457d596442e443e;
 0x289f8a46d6792691caac00cd43dde74940f122c0e5ac202588349c2eee473f6b;
 0x2ed1721123242c33f23f809f6e431511594c10b0533afde3304ba62afc55f5ec;
 0xc730a9beb7b64f090a39929af4901900e772b0f817098adace287cc20dd9e84;
 0x480eb2f48521f46f5049f8d9d682d6f4060ff6c4190b2a22c40c27d0754b912;
 0x221d30bbccbb39bc23ffe2c8571a8cd1763cd48de6dfe21d7d8f2805db1e5066;
 0x251e7fdf99591080080b0af133b9e4369f22e57ace3cd7f64fc6fdbcf38d7da1;
 0x22eff0bad54cf4f8fda9e07bfdae36713527756cff255aa481b730bd286cc90;
 0x220c6f4c23ec9272eafb522055494a1af4de6fe7456b39c5db851e1299b7a86e;
 0x18d66b43fd01a9cc88dd14b1b5d6c0d23b29ac28775ff60d3ccf36039de0963a;
 0x1f62901537c1c56f671fabbb4fc31fa743f3236c26f9f5c98ecbf332eda817df;
 0x130beece629451200a3de22eab4c45bb592aad667f9fc6729842971d4a802fcc;
 0x24411acb2c9c481c59adc41bc54fdb0fac658ed6e0b3636cdadfd12c386f8c98;
 0x2370059923938a3552819155a8b3816fb90cbde45871f6c122c190a27e7fdc43;
 0x217ccb823582bf7edbf4a6a64692e37928f2b02d79b43775abf304500dd2da46;
 0x251e7fdf99591080080b0af133b9e4369f22e57ace3cd7f64fc6fdbcf38d7da1;
 0xe2be5d3f9ee73557a1c421fe42cb29bdf8f4a58679a61496bf8a5a4f9bba3be;
 0x27639d7e461732f3baeb172103de2bc4a26708623919783fe54774153bdb59bf;
 0x159c005b660c7fb3551cbf624aadcec047ce72625673c866c5fb289f8c865fff;
 0x130d38734b549e833b50c550a90580c53248bb96731c0921ad6373316dfdaa8c;
 0x13ee4afd14334602b6791a7b8f49c4f4979d485b8d1b1119cb4a2a7c31a74f39;
 0x2d2647b74c63579e81a6270afc73e636e588996745ac0499dbeb6a7cf80a889e;
 0x1b884086fa3c4173be0fd5cb1c866c87e0f9ae4c3d9f1e3df630cb4c2fa59af5;
 0x2289328b5db5b2b2d00e76ff78815696e77eb19acdcb6c84279e65fcce29d15d;
 0x251e7fdf99591080080b0af133b9e4369f22e57ace3cd7f64fc6fdbcf38d7da1;
 0xbbd293300c70f612c8f5b7bcc6c4106246d2f713df02774a29742c31efeb4ae;
 0x278e2893fbb5d590fe623652e50086d58ab18d3015a59d6a61602b409252ec2b;
 0x2fcc41f73df0c835b0b514cbdd469af1e2b494f05269d15a6343af34668b18c9;
 0x378097f57525674b961d42a2f57a937c1fecaba4c673bdce345050d981b8fe0;
 0x15a6727e6f181a5da795ce173f1889e07f12892e13f889c4f8f6c71725ab9f62;
 0x1edc3a58673d364ba5906c3b39ff7f654c5d42f4ff94e6e75d2c500842846477;
 0x1aeddbe743c87ec10fe447a5d08ab5c73836eb214ef95a08ce91131b8e1a7f8;
 0x286e544456f114ce609d6b805b31064ab65482585699c91b9b3e83a75ca386b3;
 0x251e7fdf99591080080b0af133b9e4369f22e57ace3cd7f64fc6fdbcf38d7da1;
 0x1477e88daf9348ea5f95cb08426f4285c654a897a2c4895333052fe2cdba34cb;
 0xc9918bbd089bc26c937ae2e0a92a1d8c87cf4480b055e43831a5e6a3acbe5b5;
 0x283c24f7bedf789f31465682347ff86b4c0fbb7f9aacbe5630021b41532f7931;
 0xb1e5f0ca68bafaf026438a4682a55c1df5d387c4c5f3e111ead3163eb5b2754;
 0x2d9da1df21f14ce401ff84b99fba07311a9da3cd7efc200695ab55b1233b9043;
 0xbb61e50ddc0821f0c03b3bed9476f580a02157b6a69a17f2afb0eff5f1e2a37;
 0x21dc1358f62ff3dc24cfc896fdfbae88b0074323dfc7b36d680edba89c470e4b;
 0xdc75868b6f7e6ec9c26221637eb789b9e4c2b892ce81b527c7da05627ec2dc8;
 0x251e7fdf99591080080b0af133b9e4369f22e57ace3cd7f64fc6fdbcf38d7da1;
 0x8606e28acd8b2ee4c23a757886d7e99e407d177a58fb31b410ead7fbe1ef272;
 0x2f70d379513ce458231a8ee6b3029bcbbb4860ef48c104ddcffe65603d81592d;
 0x15315ba38b9e4c7a64a0844985e7b45db39eaec4c63b490cecfb19f02e102669;
 0x2a1529e4b1ca0cee97cde58af1536c4823f7e558bdc13f774e4ef3ec8454675b;
 0x2a70b9f1d4bbccdbc03e17c1d1dcdb02052903dc6609ea6969f661b2eb74c839;
 0x2f69a7198e1fbcc7dea43265306a37ed55b91bff652ad69aa4fa8478970d401d;
 0xc3f050a6bf5af151981e55e3e1a29a13c3ffa4550bd2514f1afd6c5f721f830;
 0x2a20e3a4a0e57d92f97c9d6186c6c3ea7c5e55c20146259be2f78c2ccc2e3595].
(* poseidon_bn128_constants.rs:931-1338 *)
Definition bn_c6 : list Z := [0x1448614598e00f98e7ae7dea45fbd83bd968653ef8390cde2e86b706ad40c651;
 0xab7b291388e5c9e43c0dc1f591fb83ecdb65022e1b70af43b8a7b40c1dff7c3;
 0x2b7cbb217896f52c9a8c088e654af21e84cde754a3cef5b15c4d5466612d6adf;
 0x2bc6b0ddbe1d701b6570428bdc1ca1bf0da59ff3bbbb95fc2bc71c0c6e67a65c;
 0x123a55a31980384f3d20b2cecbc44ed60c38c11f7d20e9271efab9a905eefd3c;
 0x37501cc8c9dc819309a769f4df098e588b01858bc8eb7e279e2883be9fb8c53;
 0x1c2116e47e03a86bb11695b0a5f6dab6b9a460b1eb951ab01c259eca3fd47d51;
 0x2c18213489032e85a9c8cb8e9a65839bfaed13e57bc0fae49dbdaebf54f56f93;
 0x2ee8fed3d4d2c71a0429eafd8e5db1718f29e2227985fdf2ad8703c835b9e031;
 0x28c64d8f5ed7aac004c92029d9e9bf91ba9436d1cce94b9316d111c70a0c1714;
 0x18a01d9ffb747ae0de3e83c707f8b24f682c84f15abf571b34254a03478665e0;
 0x1c21d92bef197e73b234e4777b60db14e642a56cee71515d54e1ac71cde72bd3;
 0xad404ccbcb1e195897cb60c80981ebb9d66a6677dbbedad8b6455fe62d807b1;
 0xa9b6de833064f93b6adb99af6c005945cb654cb7bd14c8b97af8b60cc1fb387;
 0x13129e3f930aed6d47690331ff09dc5160efa58ddce2c3e6180d45bec3aa3a6f;
 0xd7a614c8991508ab1ce4895813bb1c82f18bf7bfc9e280ccca18079839387f1;
 0x532f7ec36e30041b0486986875c913a49bddf2f5af5febe8c31f2f4094ffea5;
 0x6bbcb8e8e180201293e712f4950f1b0bbee808c9d64263c84d9d8ae155cb892;
 0xf558a4db1a3ac07f61e2e6bee947f73586bf40f211ceb4f687ca5678a9dcb33;
 0x2be140a60b5b5f2f8edd78a818a969b20c643e419bcf0b577c24a0d0e7acfe98;
 0x1c49c4b9a9f09f7b9ad5f74ebacc710512b8e867bace27cb0dea06e89b96f631;
 0x170c1a732721b12cde7f33e476a39a1aa77a81c06e2eac503847b00d597652db;
 0x19c27d0e52f65ca34f4e31a068e49331c6bfc39d9241f9d4c302041615cf27f1;
 0x2f1bdc5254f9220c1a731fc5276964dab26b385fa40b6b04bed9960e2543ba08;
 0x5b42d2fbccbf4d39d2be9339cabe9d0dc6d921e855cd91154b639d28d4a1cf0;
 0x1220040715a41ad59f4f410e0c05a42c5fd32ac52fe9d06f88188d71f61e0935;
 0x25f9526526155b83946609f7bb9507dd4925ef871dee916d9144ebb4ece1343c;
 0x17bfe4284299ae7740b6d0e204951e314a8a5d0452419147978a95b34742444;
 0x2a5d4764021ca71d78a9674cb6708f1588d2ceaf3578c4111cf8b359eef089cf;
 0x17f02dab745fbe3c081321fe5cef845e7b8d070b2514d29b2a7b7d89cc0815da;
 0x19da62626db7199b65f4adcf57fa4a3dbaa1764a7bd155708ee6f378c89ef013;
 0xf88e295fa2ed81b426c91fa69366a73edf75f39bf18634cd266ec4038829e05;
 0x1fe31c5548546c7948fe4ee1bd7412e3280eff7d20cb09aa85f49f2766148017;
 0x10fdc1613bdbf67f38bdde561b2f91e4cc48b59f98d643638fdc0afadbfe126e;
 0x1f2618c2ebe9574508b9c52f0000e33ebfddad1a03fdd6bca6ef7f0093127bef;
 0x129fe7fc3efac6a8ab23dba6d886f394da11f5953cf98e28269a0dba2a745dd3;
 0x15afd4cdf1e4f820c1631d4ab85ca4ba3bafcfee72beade9fae60523102448e3;
 0x1f2c74ba5c367e370d728e71e15b268851a7bb8b45528cb734956079ac99b012;
 0x1130e1872d76f2f9369cf59b95edf9ce19f01fa89c9c36b26e09def6786dad3c;
 0x13523d173f7e6badb73b63fc1c9bbdbee242c61bc68656493327533a5c1b1dca;
 0x14da40d0af427a65f1841b5adc96538653368f7254cb5667ddadbbad7a574cd4;
 0x91f96400e4297ea85bb186c17b304e82638e57fd631ff6315976e1a5dd8b86;
 0x303329bf9031c5515b9a34d49a64bb6a0267bc7b54a0deca5c450277a002cdcb;
 0x14ed47e55c1da1c2f05d3c1a1b2e6c18509fc8336ecfe9db737916e283fa821b;
 0x1161f10b357775d810ad53bcc4a20d5add2b03251c747deb04ee94c565e58d6b;
 0x17a8a50ae72ce707f22bc070eb992851ca914eb94cc68eafbb8a96a714eb8221;
 0x1a6c61d795dbaf62f99250b37ec5df88645a1c153791db6312b932dc250e4f62;
 0x1f8bd2ab8aa840664c4eee198c4684dc4b05772bb2a0869da6722b15f447a133;
 0x1ffcb852a4f0027a9799f131cd74b98ccfb8cbc06349d8fefcc62f10c8fb3e2f;
 0x35e742ec52f19b36d489c720f467ffad77cd53bc2db5dddb246b23021f79f18;
 0x1dfaaee41bdf94d783aa29fc62b7ec7b55673aa818d305fd42d175a05f2e3d86;
 0x2821378477a02e995005a5635088540945bd333f2d1455f038a219b8c4796b3a;
 0x1db4a4d0f238a570b1061c6eec81c02f31ffdd4a7c19e763174f238d04897421;
 0x14bf7889457b20b7a1367b34a3a538217d693b52426aff40a4bb72893b1784ca;
 0x2ced52c2bf296f87e57410c3ec9a9483a796d164f6049127109ff0d3a9c08465;
 0x1ddeac5805a7f4ada4d0441ed108e3149d4ce6584f49ae5bdfd46d6766eea334;
 0x2e36b4e5e9c97b462304e8e2b5f9dc88e1c9f2161ba040673f911123f042ae70;
 0xc6840d1cb0666dc59e89b1865275d8a164b447c5ed64347caee63502c238d5e;
 0x137e2e3e89e71d461f4c9bc3e8f12183262a4d1db55c589b2caeaac01238f58c;
 0x250932e7b0adcf2c84ed4bfb60a36b6b82e55aa94751157b1d45794b081c8aad;
 0x170a7292f5634c06dd3bf09ab5c9c4ecd4b00d5ce2f35f972b4555391f16b42d;
 0xd68cbbe77289e78d5cbf51d70f1b75ba215df4e7bd0149d10b2c50f2a4f3b81;
 0xcaf74563b90525f645a6d2036ecd1306fa1dc680b49d9ce4ed24c9749973178;
 0x20a7d1c0a27fcce78ffe372f4c58306b166f9456ed46cdeb255e395b7d30d42a;
 0x623f3226b5470b2789b8a53040e44443385e96b9cfa0be4d35015158a468465;
 0x1632308688c25e790f57d68a5350241242a56305347de4a5009ce46b8cdcb91f;
 0x2de4793a6f99cd14e3f6642211f4d0b7bcfa361597c544ffcb5a567e9076f47f;
 0x1d4d06d19ea1b09cad79086d51bde11725a554fa99559ca2f09f3bb73d728c66;
 0x480e7479a66a7cd9ea61c8b28974389908350abc4aafc18cd75e33dd130c144;
 0x30430b03368ebcaa91246960490bcf917d78681463e2e7d744bfb44335dac24d;
 0xb57b37320127d4c50f269124b0dbdcb2b1f1352241a5d12103283e089c0c742;
 0x2cf4890650d27240e195f60a4f698eda249b8dd614b23376b50178d2df6d2b8f;
 0x1e221c5526898bfd12de86851a0d9703751a2f239008ab5f9b7d3b6911c64184;
 0x28e07485ad7d992ed1a58f329ca12adce4ec693ebddbb2952e54d339f2eebda5;
 0x2f44d64f84de16dc67bd5ead51efb1dc8381c84520c12854dd5ef3a079acd4e0;
 0x50a76bc32ebd1dfe2be330f304edc7ace7167ab7ba1516f4021c62cf0d4fac2;
 0x2f58c45e5d659a67d781367241f6c35d8cb46361d97b28947d29421c270594a9;
 0x25e8da9ae0e42e840e04b230370e782bdb67534844325ba36fc7e5e160c66a74;
 0x2fec734da20fe32003ea04f127f844724f38a368ba10c29544252be796040f7f;
 0x288a6778f3a83988a8ed1727f15e93b4cb14f4e3a3bbb91dd6d1facafffd5eef;
 0x20dcc6c75fd89259be7f406750b3db679a25a8cd2715d245b9175390ac922c84;
 0x17f42ba10942df25cb8a541782a18b6fd31cf965d11178c7b04ac45b4dea5dd3;
 0x28eeb85d115a904020e0c6148eec6603e9cedabc664abee764aafd455986ba5;
 0xb1d7cecf3a79b2ad3fa298f6cea7ae95d80c0299ecc918e9f8c9c3d38d59d40;
 0x440339c9764cec79c16efdb834a26261db8e3f12ce1cf722d23c0e11ff4cf07;
 0x6ca647c29727c1962a002177da2d504f4b07a5f7eb57c79b88e6b7abbbdad5c;
 0x2ea120a864f5c4093dd1a962e8f013c7b8ef778b04d2ba5bfc3cab28619ba9e3;
 0x2bb737546c4aee7c0cc2ba87c1157e2a77c479ebfb5dc76adbb39cf8697633fd;
 0xe30da6490625d33e79cd50176f568f9a2c28c2f449a2bd51a25d15686803a93;
 0xdf7ca7278a13650b919d85497b2ebb0f71035a7c20430d4131d903ab7f57521;
 0x27cc589f5bf585794abace589fb8a74a2f784c0990b80fcaa6944097f870e2d5;
 0x2255c36a38c8735de45cedf452afa842332d33042f78e60c43c7455421b325bf;
 0x133d9602bd3378d69f681c27b05bdffc98b7d86cca63d73a60caed485784d087;
 0xe1548e942ae9d3e26860699b93727c817a9948616c93ef4accd981b1dc3d78a;
 0xf20f0e55d93689fe09ec312f6af47627482e4bde0a1602a8e2c8d6e84e8a6ae;
 0x2e52328483cb5b7ff2eb4e45b12e51b26232c9bc17b7292954c0a9f6bfa51bb9;
 0x2b2162d533e059a6eda2abb74712edb3a7860beea95dd8a4abfc957660804f4;
 0x19e0927715d1cc6d389429947fb3737dad733974c6b2e13e5b3d432519516c74;
 0xd3a800457d77785636303b8b94f17dcffcb46048872ac9f74ef7f27ee573705;
 0x2c974d1952557a1aac5f7bae4996616da619b73f441c4e504dc8fe9cfb559e32;
 0x766bfeeede2ccf3708e1b4ff30714c22c1d434cdbe8f55514babc2dd5d97bef;
 0x23dac8ea54082fc131e173ae55e4630cd4ca7c871b2a0a479c1e74e7f191e62c;
 0x17d5fb6c2cb37010e3e358ab2d575376870ed33186b8eae49ad3b47e340a8d7f;
 0x175dcac76d8a8126139b583ae38853290246e43e783fa6903ec8007f178c0023;
 0xc4fd08fede5d221adb7abf549898c91e5be7e85bf1fd2a611bf182cc2e71655;
 0x277934b909e72d3a3475bb1ec766ab7a38ad59b128303fc5002f02a65bdfe729;
 0xe88349998dfe703f1b184524f9c394d6004ccacf9cb952896e8cfdb0b078b68;
 0x1f1b2078b60b0fce07824e2a2bc8cae8ee673514b0070a8b45710cc78cbb9942;
 0x2eb1559566c536ddbc316f6482d51fa340557657700f5b8a846e812a0ed334d1;
 0x1c4dbdc335cf6764355208b4c9d243d34541d623c669dec2c3ba066bbeaf6773;
 0x2374a6b2da6f8cab8e5cfe8d805dd3a2dfca1e8b7eba5dc8574021fd1241e3b4;
 0x19dd342533ccc603a99738e3fb5a569b94ef71b3e49f90fb874f6161733072f4;
 0x217d66db6c7fb3effa508800587d2eb3c6d03d8385132f2fcce7f35f2705cccf;
 0x815fb8591fe01038cd3a3b38b236f9efca77c618d3bfc6c2a7fa89296c7e64f;
 0x2bb943b40c2bd456a6c17853b1ca88eb0ff36f5974b2ff9a5f5093e9bf63a16f;
 0x11a5153fce659513ee7cb9974ae6cba581e3b4cd14570c5709fec3d8d3fc82e9;
 0x1b72bfd07635d8501b2eff8785a2495bae74c7653cf90e6d5c9f144426836df4;
 0x14902c0700eec897ae178ba8caf850d793f1d87512bea0ecea39cf6b1fee233d;
 0x9c138c6e0a616a49ff90d43a6b043f3b745b78865856dc4c1a45e2fd84cb3f4;
 0x5b58a3dce57b281a271d69895052d887458a715783e8317e024a61a35ec10bc;
 0x2be8d29525c0cfdd5e6b3125e3bde3bf558e55fbe867f024457a96765474d037;
 0x61d72f78f1ba9dc6b4d7f7784225d6a81bdfc1b5ad6c24369f9c0560523d9ad;
 0xbf18aefcacffabdf4112eddadca6145738b4803b36145bb9516db501a0692e9;
 0x2e73dd105fa8b2ec931d8cdf29ec679e3a9801a93071a7d5ea30659255f03bc6;
 0xf8440ef667c9ae81337ba5d8c927a5347de7296860b211cad1ecbfb5d3598ef;
 0x4d303b2dea627b2731be83f93ac34e7d14d178a13800558ca7396395eb118f;
 0x234541ad72040a70da2996a35269230c94699eef313a4d480508008cbc3d37c1;
 0xd123f1e72d26b92bdd8fd73d14286c312ad4c23acb46b2e08c157104409e174;
 0x2fb360776f0de79d7098ee7aa4123c05ee6b05a8be460a774f3a048e138545bb;
 0x3685c079434e167276c57d3cc79703b7dfdc41c156ea1e8b7f99b6956a55326;
 0x260af0e0fffcc9772c1631b179344566b47aaada3681eb9034c6f75c3705c1c7;
 0x2862b41374f89b695274b33b773f2554916e2bff9ff672545fc2f49563f62767;
 0x2a9912fe170310227189ea1e691d0362f18b38b400b0eff192ca59513eba8d5;
 0x8e513ade694a0d8ac1f3ebf1a96440d32c713d5058e1224e070348c281f4a6f;
 0x140a4a431e2ee79400ed7465978d84773213c628264ff80f21ac7a6b673d09ab;
 0x296af4d019cb5df7d959b29d549c3f071202b4eba8b53dc5ee979ed143377927;
 0x1832e284a7f4c81614882b6939fc0f185573bd2023e3e505765470bb812b349;
 0x1a84d56a67bfdd3d965abdcd329aa78d4fe93434496f2d103861fd19d66d7260;
 0x40cb82847773927d2aefdc07489037a9d1f7631eca75c9fb0dda0cb9dbde143;
 0x10dcf084cc29cb7caecf26aa633bce4ed2b019f2887cee7b1a78f89d3fabe2f;
 0x7edc22a0911ea214425ef542b776db23b0fe5817810d40c72ca98aabd9afa83;
 0x2eea4ab08aec775f2148479ea36fbb96936da58ba48bd1d2d3acd48173aaabe7;
 0x1e40c0e8257fe4a61005cdcfad148cf7f47d1b5cfddfaa082738695518245f19;
 0x23a27809583bd1ea51f436de5443e108f69d44cdf51dc1f03e21948b4980b876;
 0x2e4652b044dbfe40e63b6b232fcd5f3f39abfbd2051ee68adc754080d49250a9;
 0x11e7abdb6ecbafc2e7d8cdefe9c7b9c50475eb475db3c2caf7f7d67f485775f2;
 0x199d52350cc30e8c73821f802096f0e547a13551b27bf6b899396f63ac5cf8e7;
 0xf575d6ee67cbecd98345624e032a37c859a7cbef30b3fddc949cd0978484101;
 0x1c4b6f9a2ae2b418e6265acba9c96b06184d07028e5fb784f3475ae7772ff057;
 0x2dcb5cf8896de39f228e157c0c5593f4626fb9bc225206383db20360abf0c925;
 0x1340abb9f4e113186bdc26cbdf4bcca50b531a107f863ca544575e3cf870f8e1;
 0x2368e692b72787cb8870ea888e714e006f59d2b4460cfb74c48a8cc73b1d1a5b;
 0x1fab9add9baa4a4f56f23165775c6f2d922a7632a94f96374b7dc852756f54b6;
 0xc7f7b82300d3c6ce3f8957ba1e4add54c4c015e20d9765d220571c16ab8680f;
 0x15d63e86beacd93c6083688e5d9c8f3c6947929f9f1f99ab578a4c3a922eff03;
 0xbe843ae5f9b07e52572178af7dae8ed05d36b12c0607862929355ea74023d9e;
 0x1332749c523694cb6935e0963a07e81b05967ce1d950c0b731058ec92a7a0c9a;
 0x25439408810e074c0bdd4598b9815fee892bb95ca51029ecf009bffa5b9b9682;
 0x57e8d19dd999a918da29b0940b383ba9fd15db0b0f64996dff67feb55f9a742;
 0x1e014e37e9b117cf3b4870d999f2b55d3534d0a6be98e9e357fa43f01e70a29d;
 0x1a4ed24e6e03aebcd6bdb100533dc966597afe15c851b4b863f6e889084c6479;
 0x253420007083f1aa863ad4760905c1039ed4111c9f053f27710452f83ce36a90;
 0x2276a1441971709affe6d2a99320001ec45ec72155c575ddeecac0e32759ab06;
 0x28957dd1218ea799fd3411eb19325853adf7ae8ae1281f753302fe7d31dfa7b0;
 0x2fd925726ab794c88bd75796aa3e7f1e6692f2914cf802267ddf01e37902a008;
 0x1cf8a5c9c76a84b147c8238d9253cd55b47c0c43d82966c4636a28674705fd9a;
 0x373cbbc306e1bab9e7077368715e6230b4b2e2e4a1db9c674b8c359a41e9108;
 0x60283d2fe7f23dff513d9110b3dc62448bc48f531ce0c1eab5920bf23290a40;
 0xdab465d6d910740f33ef6cc0eadc71bf8119bdfd5a3527dc8bbfadfaa40263c;
 0xcba7bcbc8224b2a8e4aba17977230a686cd6421dc0ca5346f3446b62439c4c3;
 0x1e4365db0790c9c4f445b0653c466ff21db96c38b4076ba8bd68bcb4dea6911d;
 0x1bb2dba2199a9ab3bc86ef5f9de7f6c5ca13d60eab42ced68de98fc643800a8d;
 0xad3c1870c6d6ef40eebad52123cd1a2913d9d62e80bfbacae812e082021f9ca;
 0x1b098c91e7b0cbb5c34588077c0ddf95300ddf614935630c0ce3a2627245308;
 0x19fd5c0eac14fae7598bd4ceea3b1e2998b0c168493b6d72ae41b576e55b9c3f;
 0xd4749d79cc163f17110a404a46fe427c6434f3fe67b7e7b4ccfa6ab95bd7e18;
 0x1ebbfe8114a41bb809e0b33399241232eb940ad8728c8a516d40ada440dbfdcf;
 0x2704e5b6133d9764d6d3f17d49d833223e3937f80eb9faeabbfba9baf4b4c1b8;
 0x2165e1c8027305b1ae0e323571635e5d540d13d710c3f9a390b6913f14d035e3;
 0x2e3497e4d35fda596c06afa63bc3a0f2e55d4eeba4aceb60e65081ad63aa8b8a;
 0x31da4345eecd6db6c0f7b07c7815d7add1fe0546d738f4d79ab5c57aa841edf;
 0x89ece54e47aa5c908e43e5f08737c1436967089006acab1c9cd19eac4a20876;
 0x2f53c15e2aded33c47f55a070483e6cc7f3821fbf8aa40677d0552ed9d10d847;
 0x142aa34f4b2e8ad0df7a21b3e39c00c8b0aa2857094801eaafd72befed077f93;
 0x17aea4da4c7bcf0d7588b014eb8b40979dd2725eda4e6ace331982467c7ff2bf;
 0xe970c19d19748d8c465104d8f02200363f9a41786f02f1827742b20dc0d1727;
 0x4bcad9e553795642f59baf714a6bdb432fc45a0a0b77f1aba3a9823476df9b9;
 0x242c0bfbcdaa76f715dbd4ba825c71fcfed671c1b1901fa484c87f810315d0ce;
 0x25db1343c24104071023fb6ed34d9909078311e1efe85af0a11b19114fa9e790;
 0x2ffe4d9c420a59e9cdc7c31ab2bf35187ca147cb898a3942deb3677786036a80;
 0x125bb03af3e2cf18bbe6f5b590eb3bf8d0d1ba63be696483e98f283bc7cd07a3;
 0x816be42745b7dbb4ceffe5b8e24ea60fd8b719deba50037ac7b75948745c6bc;
 0x111160f9acf6ec360d1b6a712313a0dbcbe23e64420055471d2ee4c5dedb35d4;
 0x1377978e1b1f6a8925fa8e7b7941bdf8fb59ab9542342419283d8203435c9391;
 0xdefc1d8882166ef3ccde53a4f236fba83d384621937cee57e421a513d0d3397;
 0x2f8fa5c78c706e3a5d4a03f2a7a3953046d7e94cb88a7ef350e67b5ba0f0debf;
 0x1a2a957ec0a723da61c2134bab0bf17beb00e6dcd84690c230dcb9e58da94827;
 0x1cdf8710995f5e03412b4a7f699532f9fd01f0ea167a8dfc1ddf37e2805addef;
 0x26fd31471828c36ae36c27b748054b0c0c4fe5239b301699e3765eebecc18946;
 0x775d996cc2c4456f303a2c1f9007647e11a921d9fea3f7b926143b99d2fa0be;
 0x16fb9337708ca638cdfda91bd0daea6b97224ef7b2062672addd1bd18bb8900;
 0x2c392fbe7d3fde42fca4f9478bb439331258255356f184af6f76f119054117d7;
 0x187a2a3bf79a69fa3e5089ef9f1fd56fdb47c55eece77aa228aa3de1b486bcb1;
 0x271a863a280a32641ffa33510b2edd278c98630359532f3e506b275fd5d20ce;
 0x1557459c9c74c94aa00e5af69a1e3112fb69537ce897ec0c718958d96516f2ab;
 0x2a8e26ca8d647d9a6388516ea9dcff89083d539e58168c2a50c6dae30f109f21;
 0x21cb752194cf43f3b51942eb0040eba9de2bcfb1c2a3fae97924b710f26832cd;
 0x2c26daf996be247acd6dd4acad60d38b5a471e6322188d02c137e7cb484377ec;
 0x240176ee0e7982eebe92a68d3e3a38c26821acc0f5d058cf8c137bca2d26f1b;
 0x2636e0973c865c1bd974dd78daaa8d0a84cdaf6be1ad47ecf2a0d18f117318f2;
 0x19e84f4f25a799496041661dc5d975b681f6e06744cee89b7be5d9fde1744ac0;
 0xebf89064a3af247ca1f36f6f3570188e271e0b326c4fb26664e89e1454ca110;
 0x25c7e97b475be00e8b559a38c452364f4c9c531fecb8ac698f7fd73ce22e71ec;
 0x444c99e592353e5aecaa302add901c14d8c55270a160afed4429ef5598ad74f;
 0x138db8887830565f2693d0e0f02e4e79e144967f0ba53b03519aba764b5c994a;
 0x24d40f462114fe9ee02aafcf74b4fca24e1ae365dc75c3b52bb13cbbb2f21edd;
 0x21e65d6d8ee43760bca40e730b5df4c4cf3a8a732db148f4b2951b4c61d68e8c;
 0x248dd79669ec09dbf0350a15d6c75c6a9bdaacefca14d51300978f13d1ab6d1c;
 0x2b8238c1548f9cbe29fd35cf91e7b48f0ebda7e639edf69fe8d5aba7924d5362;
 0x2439fd239257f38181c7be3cf513f1bf7235eba94f6b8942a94cbddecf6f62f7;
 0x200958235281a61ba2c4be0aa3282a18c74b6d262f5de7c2e33d2bb3e893dfec;
 0xe1eca5df88ee5f60cfa7e1fe5befbb719fad8211fa9b2d02fcc233190c17f12;
 0x26b53427f9b3ea2c769d9c660fc60881a169c12732d001b7158ee4b1b842ca24;
 0x20f3b3f4acafe9f8af3e06661b3a8f778fa2812522b9d70a67402cff8db2b1b4;
 0x211e5d2b39d62520a7a627ece8cacbac9f97506def4ec286928ba6c27d463b17;
 0xbb743ee34802129c556731aed9d302dcd085313ce572f6242d13832e536b4b4;
 0x23cb2661b488ee71e4c753ff23ae4bd25d8a44094f66b6532977e22140eba5cb;
 0x3a35aa3123911cdb4535baed3359f5f6a5205b9c93ef31d35323a47807b8bc9;
 0x27803848a0aed96a93fa943b6635e450217e137f4ade74a62d7917322714b697;
 0xcb37839c2c9a7ff79884cbec75f41e9be5e47c76d61538231bd8162996d6f67;
 0x1f0026d0bf1f8e1dd5423cc2fec1fb5cdaa1ecdc4c3cb218dbceef77c00d2f93;
 0x2a7d7bb970b8a6ed2ee66fabbba956b6da3b100f5b5fb928eef42f9708273c9;
 0xcfd7f4215e434c8da17ec3258b0bc605ad1ab2e90aa494351e4ee40bbc491fa;
 0x180b11b720622a156849dc6f7f6e7f571659be69682230c5ed9ac339700a7cde;
 0x4e96a965bce3d3a0a24a4a457c951582c871349ce7eee1aabfe578a94c65011;
 0x15931f782b45f7fb656f2cdbd1f7705c353a23fe1d30a5a46a1522ed160df3ad;
 0x2e296e57c97a5309acd26febf55ac963a5444c1c5f703ad88a0d7b97b9dd38b1;
 0x26157bceb78e846bbb262f9a1e06d4271bde5a5bce8f0419952f97ffd13eaca8;
 0x2194eb89847d6b0f1897f675f19c0c56b61b13248eff3ca36e34fb9d1c79ee43;
 0x2350bf35477656899151ad7dde96ea7857e15501447008dab6b3d27c8ffa274f;
 0x1a486f0ae591cacdaf09c58a49c4d1795405435340819e003f0469d110b7752b;
 0x1b56dcf76fb23cc4a834d455a4065e133571402b7df309d59bc3105d42a8c301;
 0x1a749d7964af0b7202913ef204c653f2b4bfb65ceab7b685233ab59ce3bb6925;
 0x18ae590073f969696af762ffa4e8f0ebbf97f8cc787e37cddd1f321be3beadbb;
 0x21c47b275d82dde6460d5e769a99421144b1c5a9da59294ade9cbb317103f249;
 0x473ddbd52e737e527364e8eb63207975c38d5fd6cc32b272102b082cd1518fb;
 0xb12fac95b6d3a881d892657c8424e645ac4e6b00515f902d594574302b26e02;
 0x8ae7616a260cf6657f8f73ac284588d2c5f07ff425d837aa7cdcef63e3e2103;
 0x39daf6876280b80e873bf2a32fd2834a83c69757badd58a888ef819e926ce28;
 0x25e7b1d7470a3c75f13f0b56546c8e09f2d8efeff06ef766f9c783ca869d130d;
 0x1e8fd3634c3ff764184d03435f98584b11b5b15aeb9c75262da3f1ea2c2a9e7a;
 0x241dcc51ac37808a415dd1e3c281f05aff11789dc0cafdd77a35484e0993f9a4;
 0x1ffc3153c56ef9755932cea2be0573749bdafe1c4fa0781a4b8b4078ce9d7547;
 0x17630d62d9a3e510c88a4d43c360f92bc0fa00b66031adec29bd9543fd3a17ee;
 0x2980400edd1d74e3d69db5458d2ccd5fabdb236ec16a82a4301a0ab59ea4a6e9;
 0x3034fb24366123ec6dcafcad35726dbfb16194c036dcd648fa69439bfcd00cd4;
 0x1aa7e8f4189ca9dff3db2ab7648be0a2392995ce46041e04680dca8ad7232df0;
 0x1fa195f834a69e62372f60eb497da167646eae14153d803b39dc5d11f5d7800b;
 0xf23f1c74d5fbf6195ad5a6aee5e56993c5477e8453f5b93a0d7bafd333036d3;
 0x16556fac9348a735ab50aa089c97151b3caaf0a20a34fb9d9370505a1515729;
 0x23d92b793648110fc5aeef0633f0c77cacb0dbbca1879b8a6f6e5df445e5f70b;
 0x2e4c10ec5e65e2f239bbc43c13031df2686ab40fd79a304b05d611b823f23b73;
 0x12418bbfd77b63ad5e16864ad9c32ffbfc5a3dd9b78ec2b79329fe5e0a8d2953;
 0x1e4a8aace15abc1d5b76a9e848431d2c06a78f72b6bebb1293e6c58e5185696d;
 0xf3e96107decdbd6872c20ea09acf92cdf17a3ee1d1331488092d96176deb755;
 0x12c3780207f395cc21deb0abd951681eea32498ddba6ce897a8f9f0c2357067;
 0x13eab1b4e672ba1b1c1bb901769301f1e5659d03ea10c61de2477ff0ac221421;
 0x20dc664abb20b7456c06629ce37a1ecb1a27a4e8b24e31b48b9c4635aa30323e;
 0x2c6b1e2cfea78e2c36785e76a8cfb1b057e9471f24f5b391175c3decb01e000f;
 0x188c926255f5b7af3da96355729c2a8670ab4c2c70400481b2ac903740e0c5ab;
 0x2f9913208e09e3d6e9e6fba6384fd076ab89f2662976e3e30e0870bb30eb54f2;
 0x2b33803d90889706e714f720b5628d26fb60b545a1f3e9ce49a6ae912b024086;
 0x26ccabc10eb04327cb5cc3dde2abb36f097086c97e738c133c9f57077e748b09;
 0x1b16ae0d7c54408cb75fd931f246751f2b0c3dc20d79e82a2531b76c22b4d5df;
 0x11d0bb461bd8af2844f49f0f840c94ef9518b2511344742d1f5438fe3d415ae4;
 0x233031847b476bead0118d3db338e89133ec420d673e504ad647259df655571e;
 0x1f84e97895bee438eb3c92dc9b1846c9ad29c164387b06aeb6ed1841ed8c4dca;
 0x277f7f9b542f0c2bb5f45bed054f09624536010c3cf9452d2273193327f801d6;
 0x1efc9c9069e5068baac13d2e6645641b7d27e80fc23077161535c44682ee57a9;
 0xd6ec477761e2efbac4f14b3bf3d5257a99e64c3f25fe104faf988b20fe5ff44;
 0xe0e7d7c5501999b7d16173b59b7cae1f203bef21aebf00251881439ccf93013;
 0x217bef2f4f12c6dcc91c2058a23391cb77de53ca6e44dcdc6ea3d36fea326ea6;
 0x5780c88adf01531b50f817e3fe44447d29b35aa8a389c71e8cf1226acef68ba;
 0x18733887a6b2b3b4c90d8e4990196e23445e47d7ea5939ebfb89a3ee3d67b4bd;
 0x20bace63acfcae0b1c9f2bee24b8e9da85ba597d37b0905720c4f15db231b07a;
 0x166ea595375a6786ac527ee9eced73ed6bf550876abcaf3ac92b42c808b00d8f;
 0x304262a9eff4040acf43e322d6f52676ae2f853ec2e7a80db00c488cf917c74e;
 0x226bac7050166e5f6db78cd0b12d36f305b6e8c9a055114ad7709e6f57245b6b;
 0x26b2f539c573829f6aca91baa954505bc5c3eb4e1df1d638582717fbdf2388cc;
 0x6a0fbf4cd52e93ba5e4c6c4af65db02ee96297f8ad200f2f1cff252e769b551;
 0x2cb9c24112d35341aceac88360fb528924e58b6ecac321b9fb29e6aa3368ff23;
 0x20e88a4d607526dd07fe08a3552a44669129eb87fcc0b13aac8fe8afd9301521;
 0x1544649a2bd73e3ba72f396df91dd65401dd8faf51de325fbaedb9d536ad94fc;
 0x1980077457995712c44da7e17713258e3f8eb354bfd80ed9eaf3ecbaf6960105;
 0x25d1d22ff13e7705d3c085f97fc4e4f6914b82ffaa5d2091ec64dac423765ef7;
 0x2fec990ef556efe1035a464ff5581e74067445cd54abcaf6b8c0399fe0d24cfc;
 0x1bd9563506d9544ef3e4830e13545012c579379c2dcc1330416c4ae49bc4ec61;
 0xaffcd17ba6003c56dfa85571fc29737b225a80d480e7dd7edec01f14f23010;
 0x23670dbaef966881f07f919a2d883128c7b23cf767a477b2b2e0762bc0dbc18b;
 0x1f93a532917394c7e22fd17abeea6389c66fd7ae2dd9f02f860f6d96947f0edd;
 0x2de42e9f537b7d61b0213771c0e74f555512be07b6a50934734e2c5beb40be37;
 0x25c557f45b99781cd37d3bb22931662a67f78b37782c885b456bb96d55e88404;
 0x2074c8b709705c9888538a7f8a3c4aff647731bd16f8e254fa74ea9f2be7662c;
 0x2738355956298138949e442171d6a4e4b74ef2065740db7cfc3a0b60fd573acb;
 0x13d36ad0a4ebeb81969778649659c65cb7d0c41cc519871fdb71a9ea6a0caa56;
 0x8a2c18ba41381348c1acfbf9617716806b462a1691bc2e343b79b8085e376b0;
 0x59092fc395aed285807bbf557ad9a1041f59c079822b1088457882fee7b612c;
 0x161924151b5a5ad2d8cac119522a991a906f15e8531dc70567f6b28371cc24e3;
 0x1c68ca8f7aa17659075405ef6341b8e69a298b9a4d72f3bb854b309e4ba87a1b;
 0x27f5d03bca1c8207f7239a4b2cf73ae559a15aa37e7bdddf3aab05eec5ce5592;
 0xecbff4846962a975d347ea9a8fc465fb46861557622f2c2564a7e639833c169;
 0x277c4de2363d8b5b456cfc5a7ff8e46ff2ec8daa59855f5ad64bc0521f3ac567;
 0x1b11862c52acd351b7a464793f4fbb57fec99f832b63226f95d175c8d2fc08b2;
 0x6a719c584c74ffbdd7218eb565cb4c8bd86c92e3dfb3c73e1527201aa51234e;
 0x230e4adeecb799877f7ce9a58c836b99d533584a195c1d77a313abe1c7d126bd;
 0x10b109b864809c4767a133cce6cbad6c88628173b8ea51e8cca85830ca7de522;
 0xe21117970dcfbd4b1526b253636f377538d3b4faaeb5a8b24bf6200d14cc591;
 0x2667349978401362f6b17939eeb0e64ff55607ebdb35c7071db46bb3e7ba4778;
 0x5000fa5fda505e029a13bfe304c267b0d86c72c039babf6d3ff02ee246be02e;
 0x264d9e094aed5f41a60242220a34a284089087b2436a9bfce8174cc9be8c2e20;
 0x8076f9c4743de6130ff622cf401edd2c92f24bfe114f3c5e724891746315c47;
 0x132370abddbb0b1dd57f2a520c25336bd7cede94b95bbf5c2151d6d88e641b64;
 0x8ff1116b7a227bfdfd4465a67890882b615c8c4c17f28d8d24958edf602ddcb;
 0x2bcb0b0db8b9e3e02b7e9c1c9460fdd9c6cd98562332e648d8a3e0ab94597520;
 0x12ea68ce6881becad7f8a6b117b03ab976f7abd597f903b0bf230d20d21a943a;
 0x27439c98a76688067a097b19b6fdd7d78d5f88e274e0d8fea5ea6b7406fdda7f;
 0x2f40d0ad05f5652e31ef9440ad71ebc8419e393493937f05f00499d02a99e36;
 0x2fbf04284327ee4f680f06bd390e309d0d13acc74b9c5b14b63059b8cc7abff5;
 0x1be686d53e2a8ad57a828b0651425cfc6978c7027edbf247f6b6723c21df86e7;
 0x2683b425e85a508f96852f14b4220fcfe9f7ad8b17bfefc0e348c47ca78bb57f;
 0x16dace9b2e8012e31db1c7ebe672d86bbe61a1aa3e1693e0eddfc0de0a9dd951;
 0x27a321f8c7d3c9022e962f7fef2e3c848b4539dbb75aa139f30430fe545bcedb;
 0x6ccd7210dee1d6b0e22b79e12d19082d8078b788d71007b95e7a774ed86a651;
 0xa41dd42221653752bef350f6d74a917b6cbb1fd76a3a12166f4d0be978e4026;
 0x220a02881e4d47ac94d950cdf8386274d1782e27cbd0d845978deec91298f165;
 0xe2155a545fe5f3cbb6397606589eac19cd92639339c6b017298a4ad3408b4b9;
 0xf0f19c6291e51546a267c60cc774e5fb9d088bac530782d891ec1af4b847073;
 0xe925bcd1c6ddb4a3a1c67ec8deefbd40c53c0d33e7aeef1b46795aed5943c9d;
 0x2ad000b1748abb812cd6e5411286b9ff3ef0a5bd3d259a36e45ef05b9eb5beeb;
 0xa65aa232d32ed6e8de63d1cdffebc2f3fa616465c27aaf97e8cd3dcff648652;
 0x263d8470ab4b1c61d74d8e896242f4f261dcb167a3a06923893d7cb2c93d6a1;
 0x2901d946addc94b040fd58004d9a5f8cd1926540c7a8612cec1c58cb60c2b3a5;
 0x1889cfa8209f4952df9022db9dc583b5717a0696da41cee64937d0cd6321e693;
 0x236064d71cb6c64c84747ac25fcf8d881502e5f03bff87561b85a116b1f39aca;
 0x2ff7a174ffcec29862e04f5dbdc73ebf3661570033576290c0c1f6cd8ced27ae;
 0x19e724a1d742cab103455f0040edf745a2696a71084c93e322715450dd4d6f5b;
 0x3eed3892b6f0e6c5da1059c5f3793985835aa283500a8129904a94c87f161bf;
 0x8e2b8273bfa30c1ac850306d91e468a9e8d05092aee4cbc80c687248463ba30;
 0x7adcca76d8337728839a1b6ac3b3ed42afb87d72af98f52f416f2ec58b28cec;
 0x171ef37896bae2b1020a0a5839bd51784ce11bb4237d548c171169d32fa19b40;
 0x20ffdfcb86f4d005064edbc296918c332d32fbeff1729de5056a26abbc3a35fa;
 0x8ecd7a6f1735eed86baa094e608f488f38dbb398fcfed4b994383a0ca8e4647;
 0x1c3f5d86e5921fde9890189f1d8c618754288600e6928bc182ac4d5e4c9f0ccb;
 0x29c61184ed9d460f337558a1af639aa7e3c0975e4014ed8ebcad4a25d51eabf3;
 0xdefd45b28958728228adbb2dbdaef6a5e9b1a64902a734f402b8cefb8ab3b56;
 0xa74ea22d8a09336060610179ac1d82fffa9492df76deed4ea60e0133b0811a8;
 0x3a37bf12daf1400d297ac4ac13ba24c17dc262db16c8523deee4e0ccde9a680;
 0x11fe1790d5abbf5935ff22318e4f7ffe69966ada2f9136b54f830eacb0a65368;
 0x18165842f406375f2346686915afb14bf1fe0564c8858ee3bde0aba3de5f68f;
 0x261db25e7cff5a9fb72f276b1f9260b667300fb7d361b50fd5c0e8b6995b05f9;
 0x2a3ac3314b2b66e796fbe36df778c5e46972320cc43ec807048826b6704ba7c4;
 0x23caa4b80ecfa99e9d3fea2bbc1dbbf369d1bfc8937d03d074061c30fd8cd76b;
 0x27db260085e224898df145f23f635f2066d8e4e124e581e8c6261929b1dfe107;
 0x274f6c5fd34a784d6b915ef05d424ee6c0babbf369e79ab138b8167b5618ec7f;
 0x2c3a29e13a84d26a0911c9289daf1aa4cf5840aada0701d57e23dfc796da6da1;
 0x1ea210f2001a334d3e801f4e53270d42da7aaf317a553b4282aa78eaa2282e6d;
 0x254dbeb52884b699c1ba7fa0d6e80d610903b18a3e509c36351ccc3b024946e3;
 0x59e781d65896ebe0e4ba26dc2f29907f47bcdeda4a2ca2c713d8505ea31fd5d;
 0xb5b1cec63d42d5e615dc269b885a24cef303ec78c972dd17cdbb3e915cc4ffb;
 0x2a7c015e9c3b2c57ca8b7d26d39a1bcc85d6ffacb7d9fbd66d2a8f1d64ed0c92;
 0x29b736b911d71a79cf63d8a6f786f11bd5abee24161dc567a7c851eae1e43b51;
 0x285745a90a7fe3d09af5a808704bc69c6f1701e573912df5cc1e265d596c4141;
 0x2d901b8195c3c96c8c36eb99fec0134ec2b8304ae810bd30da554e3080826715;
 0x1905d3518355eaba7859b591ed7b8c9c253980f0450dbdf54d7a7782ba058392;
 0x23e813026fc0b80064d19b5c5428942fdf7efea80bfa8ec4095272bfdb7b4c9f;
 0x23c0a19a252c87e6b1c1c21b1a79800200c3fbff3e3300e7e5568071de9efb81;
 0x11c4ae607bae492413bf62cdaa2c2868ed1fec6dc0631b067ca60fab125b9e2a;
 0x2cd055ebb7ee4686365dea450f046ff62405fae1b1afc9fb01707cf81da0e3b9;
 0x53c9fef2e021fa9a20fada22fdea1505b58a3159bbb47337dbf791b215b1452;
 0xa35bd74e87cbabaabe89ad1319d2c9e863b4c631c21938c9a5395bf97872a9f;
 0x1c115056539ce20cd5a04d1a5c43e2b00fbe83b25901be36f5ddc4666fc383fe;
 0x242954047e5772fd3bded590ec8beb4c542f2e264c8c3e284cdc473505c51a90;
 0xe2abd315b47c0dc93849c0cdf267e811cbdbdb200a6e7c2b67edf7cb0174214;
 0x282b37020c0890d751c3fd76950d8068668e1dfeae621dd552d2de887da2ea75;
 0x28933852266b52d9ea6b5bb923d9d94f2e5a5be5c778e75e07942c234b643bd9;
 0x99ab6765505ba1198ef140e77b7954d4fbe79a056ce72bace39c048c00da3cf;
 0x2af211d8e0ac2d8fda7f849b8f229a225c6186b55762c7a7b2ae2d1dd85c57cb;
 0xcd070f234014a2809ab90c71c1da61e98a96322fedd99b6aaae1ca104f3facf;
 0x26793e2abc8d3c30c60626fbaa158f263587d6bd15833d448b116264b930256a;
 0x225be36ed0ee85e1f845ada84e5748a56699152113ff61b5056b6d8bde60c19d;
 0x2174f49edb02d5154d2beca2dc92b9cc595383da1fde8f09e4b5ee3ea5a065e;
 0xf64891c2c8b020e46c3594cb758f0bddcdbd09bd0308816fb41734a869872c3;
 0x192a84ca2f99d36991e2d2b1deff3989d1c156c239e10e9f56140e1854576067;
 0x29dfcd7b63f05abf2753a8c341d6b7a60c6243b04c9a1b8b3320bba04a4d4787;
 0x1ee27ad6b9b5a867733afc61a2b3e76a52ba3e4bd5e657ade91fc038819dba5b;
 0xab4773f150c3f8ad3bc9538f43cec395a7e3731ae973fefeb623a09217e64c7;
 0x13c352a02f595186202cb0b99fa58c5542ab67f9b6d3a0afd103deeff6d80f41;
 0x2a97cf2c10c4bfbfd299f67c52a169f92c05b7dac56a41c4dd4fe87c8246ce14;
 0xbecbb47042bd7f8c9f6bb422162d1aed089a28482f7fd16ab06a13285fe702;
 0x8e44da21d738691b881757ef37ed29c5bd9f7a4450fcf53290a92cc2ca2176;
 0x2b205a8b6d4b7063d931f3bb5d3464053843fe7fbe4b83c17883f86527882a18;
 0x2d9e32a7c90556fe108d255ac01e75df338fcd63b2bf84c19280d427298863fc;
 0x29a322a84c25bd2ddf6e2e4200228d95abd6349a02266ac1dbba520738ceca97;
 0x678c9bfc6f2df012f4fe55e33bb68ac14ced1df0d02152792089d046d828c43;
 0xfaff3a5e7425794fe20a7e0eb615b8b1760394b7f2304286a3ae4009124db23;
 0x1f8f5b611af9feb9cea86c084058120553e404103aee213f5a41d1d02541c0d3;
 0x160875d8479602f96f40acc2d042ee52c1588b6a29de4284965a6dc6c930ea07;
 0x16d87a5183a316a1d70afc951efe2cd667c77328fcfda458cbf5fe3045f46d9e].
(* poseidon_bn128_constants.rs:10984-11029 *)
Definition bn_m6 : list (list Z) := [[0x124666f80561ed5916f2f070b1bd248c6d53f44d273d956a0c87b917692a4d18;
 0x11924f02fd19b09255aaa1cf46ea0518e3d7bfeef47421609491011db0bd0b02;
 0x247fa7f022304a1994ff505456c2201ef9b717369498d3ffce446601ed9df845;
 0x3fd7b19ef2c861f22f77ff810f54e277bc94eb76c02d79d986be3dcdf051c3f;
 0x18bd41239c3e71579a677443ecffbd555a81eeeea69352a68b67c8563c0c2a06;
 0x2d78c3a5d28de9ff35bf0a257635196e5730ca7f40493277078cd75da8b4ebdc];
 [0xa514a5c227f4cec95dfa029e8dd124c34895aa46bb27c0911f3780d5015540a;
 0x192e16d17d956b257b85a652eefdf2ee09589eac5be80915775723d2cb1da06d;
 0x298ce0c1e3113bb935c7058e7772b533b1aa9db0c0926bdc8917e5605ca3ac10;
 0x94cb4e83621afd271e41bc71727f0158ebd612239ac9d698b17fe4be05b7fc8;
 0x3d880395be93c27d649af5fd142e76b33918cb8841d5a28173bd5cf7d328791;
 0x28eeae6b5866ad68e443bbaf91680db7d7e2b3037e38fef61b42cbccffceca81];
 [0x278bb49a7b4e44aea46eb0f882cb692801a6e60fdd5b5c23c63cd65ccce4fe0a;
 0x63edec1bed831f506af8db648d6fdea145345887e8bdcff109035a1d9b674d7;
 0x1baef1cb5509b526a42061fb53657f99b3232500e855192cbe8c940e068c475f;
 0x1324564ac7bdf9e22164e9858d7fa8e368b165eaea3daf4eb67ee59c0df2e5d4;
 0x5761b8c6aecb1a8ca4ea4dfc2c8376064a4a8004ceeda210a55240562ddc13;
 0x10c9e283159d58cb4cb2e35fde83a3ba1fdc28002ed9963d2a99f186178a148d];
 [0xc399e9f67aa40707a203feefb0b958bbdadcec5ca34901d253d026a2419f6a2;
 0x83f0df3f1a0351d0330ec3ff602ca8cc353b7f6e762c7107184cd7b423449f6;
 0x1a6764d5943fc4a720b4c0a19fdb8c711984307287a58b9b5f9f5d58212cb263;
 0x11a63a26feabf87fa66bde66cc25a922c96382d76c6a7ff48f1537beaed683a;
 0x8ca7b64657c3548f32bef5b63ad24288a41c0b251099ad27f9434307e3e64d4;
 0x1998270471e9361955446b0cdb8bea915ec0675f1cd648ddcb04303507a4489];
 [0x1d6b3d5f6ea369c26f825d2362933eaa31ea35ec0a77c1fbd9e01ca1523e4432;
 0x119ef188bb3dd0d32306976c19941e8664be687e7a69692da27da215a6f06d40;
 0x2d9e0ab5c06893dfdfd03481381ba86b6e6292df5609d71f2c64b2d9a79f809e;
 0x25f16631bf77060f7ea34087c025bf135784319ef08cda2e31419ee0a529e658;
 0x144c7a11da5a7c5dabae3f33fbd03cad86d18bc594c79a497ecb9894edb554f1;
 0xf971162627723f3feadacb28b0c104cb8f74de508752fa8d7c0db2af13de8ee];
 [0x24be510095436206dd0abd0b0cbb95c883ab304aa52598b1a69306ec981a688d;
 0x211610e2ad4a377426fadf7068b0c1a6c299a164c1c1a603eaed944870d0b9b9;
 0x15a67d981041b1f6f09f3f9ebefd864e779d3af08157786ac077505e50ec79fc;
 0x49327fa79d28c12a2c82406947f77f06775b0287468b3136877701dbe7c9598;
 0x230940dcc5232658ff9c29697a3fd416d170e8c998f1aa85dea0c42d79f951aa;
 0x1b121c049cd1159e289007e0c9da9995cc4bab4c26fb888ec3972a8a2e656964]].
(* poseidon_bn128_constants_opt.rs:359-466 *)
Definition bn_C6 : list Z := [0x1448614598e00f98e7ae7dea45fbd83bd968653ef8390cde2e86b706ad40c651;
 0xab7b291388e5c9e43c0dc1f591fb83ecdb65022e1b70af43b8a7b40c1dff7c3;
 0x2b7cbb217896f52c9a8c088e654af21e84cde754a3cef5b15c4d5466612d6adf;
 0x2bc6b0ddbe1d701b6570428bdc1ca1bf0da59ff3bbbb95fc2bc71c0c6e67a65c;
 0x123a55a31980384f3d20b2cecbc44ed60c38c11f7d20e9271efab9a905eefd3c;
 0x37501cc8c9dc819309a769f4df098e588b01858bc8eb7e279e2883be9fb8c53;
 0x15de231637a8ea3473c2499e1bee320c17c6a0a4f48a9b28ad1444d5351ddb36;
 0x1c9b1da36989206de9173b0ddfb539bdf07f89df055efc1cc489002da3f4b534;
 0x1f28ec9fdcb3854cb327e3e2fe3958550c37fd179198a41cf20a1a4c810654cb;
 0x2a0418e12dd26e796c091bc1fb1e50f8290263b3c80f68036e6593c2db2f83c6;
 0xdf6bc990dd688fabc1f8a5f8fa02a6a86f7a3a9ee452f5684d123eac1507890;
 0x24cd99ab301ee74e2382e238be9941d9876f320e9940481647fcbfbca7eb6a8c;
 0x1036eec6b3ab659a50c22ae3b357252e64641ce082e5c084bf61a4e61198ac85;
 0x21ece1030bf5ad5759f35ba96af936d82a64abe4f9bb2f50c28a488209286118;
 0x2e5d9059e62303d8d17fb509a60afdc4d8ee1d9137f8fff0d0c6e9135aaf66cb;
 0x2591d88c11580b75c4edf44dba6ba31c696f6789e22d3fa63bbaee71c6986857;
 0x1e647345c108005a7e2f870f01142223bb22ab44a03c7198852aaf6d765c3bdd;
 0x107e279d710e65358ef44f966e594d2ba04e3e15e37ca5aa5117adc71b441f09;
 0x173b298298adf659b3f695a02f51617ecca7e221f678375405f20405e377a44c;
 0x1228a0cd105946870acc7586969e7e3b3e8d4f5f46d450b14698202adb9ea1ce;
 0x778cb45d98c0ec68849bf203dc7b151840928cc9d7f40670bf7d48b3c661d68;
 0x72a7ff12706fa3b3400308feb33ef3ddeaeb9a5678bd4a17dff096fa99e9e64;
 0x2b0997b01165c2874503dc12fe77d6ab58a44c583b939c35d0805bb555cd09f3;
 0x80805129259af50e2e5f2d8efbde358132da1c19fcb7daf48985491c9d287b5;
 0x143e4e1f2af4def1b19038a0d6ac9606e33f40704799f0890b4aba0b2d6cb923;
 0x1c16b447df0a3026d5b9123abaf02d69076c59153052660df237b5221485da3d;
 0x2212763564a17c5b816703e5e52a7db0c5bfb668fe2e424cb251361426830b92;
 0x16dd30a48d96f76e9378f65bc341781e97cfb94af5a57091bf341342c0d7a6e;
 0xefae4a569514657f67e19ca11c01e2426ef0faa2bed48efe0711d338ea3b86b;
 0x281dcd532dc450be559536e252e0159ee21d5b91fbf9725f4a57dd870d80e779;
 0xfe4d11a8b3f24dc559b4a37118f15ab83dad5a74dfaed41637e994a81333f95;
 0x1857938e02790819328278a913222344640f200c51410456089768bfcea561a5;
 0x2007d043ddfc54fd999f6f4b63d4ca66c5f126951388cddb1dcde32944155675;
 0x23de66b927d576792c69a2c6e7df20d3fc745614f5202780bc2b4c2fb27e9e39;
 0x2bdfcbefe353fa2ffe79d2efd5a51c981345a2de40ef5c764bf90da86fedcfe3;
 0x26cffc0e5984933313e4f06dead07943880da66929d3aded77e0fa7f994244fe;
 0x21c532ad0d50674be3947ff2d4eb744eadbaa2812fc0fc25a41cb84c0fd3efb8;
 0x246ecf2ee4531862cc5a2d7842fe3c780b868ef445f70c9a1e2bff46149cc46d;
 0x397b3980a3cefa0fdc7339c4f9500b3643c54a3ee7a39600304741a2e772e90;
 0x144490957677636a9a7bf12b1ac99af955ea70999b2f972211552ac7562c6aef;
 0x4a96669777938cd9643ff257d5f56c5f4f1eb5adea49a678cec3ea17067f1d;
 0x2423a50871429a8c48ba13e4df938e6280d715b39af43449ff06030e346e3e2b;
 0x1ca50640e8f42c03c288014e8ef12b8014c3c40a62fc5856ee9b633146ec602a;
 0xa8335c2fa762d09bda1eb7e22b11cc117df788c0d023d6d8947727681a7a9eb;
 0x1c57af7a6796ed37bd964c33cd1bc9c89747ba21df6100209fc3df9f707f1cda;
 0x8f0ad5a6c01f0bde7d1a8e7d26848179f5ee31d6d59bb8e2c701e37a4cfbb22;
 0x50c7821c6e53eba185a6278fe04a5c1f2f28641bdc843c9fab2ac897e8a2466;
 0xbc5d445c5df52fb9b4b9d6954bc75763d53b0c2089832ebdca9605679f68d0e;
 0x10a6b2a07c472c2a32e9dc1f0501fbda5c9f05b861d1c78a5cff3594197b73d6;
 0x1a24448b3442479c7ac8191bfafc67d9c75e40200b318f7c72d0c2d908b3ddb3;
 0x5e230c7b91dc067802c6c9fead50897c03379389e2a7def370ef4c28e5671be;
 0x1eead685d9f3577f7e364da47f74d8ee2cf6cee31660055615d8f294a30294ac;
 0x4a22eaa10791b59b1bd8ad9626df74275535ebea301f8f912c521ef29c504b1;
 0x6377b60615b7b9a9f0eb2276786d028cca82fbce7db1cc27f50b8486c8806da;
 0xc76495da478bbdfd623fcac2f3b08d641c4c654738fad67b9e90ea0715714f;
 0x250ad6b94e1bd06817cfd2421423a95e18ba872b276c199e16a8fc650c5a9d61;
 0x1b2e0e66146fb5b1221c878286a0983e903e6a95390f57d298a50dce6f52ab47;
 0x18ca890aaeaef97c7c17cab2c3518fccf1180b8fbd134fbcbce38f786f2c0e03;
 0x1b5c3db94d9e0cd45571c1b88084186eb58930bceceb2c8f775b12f37961bea0;
 0x6294c72686a69b6069349a73a81542cb16a6ad71337b7c7ff5a5dfe06a260ae;
 0x2c18a25a8c2cae179b1a643e11159e8f5c9da448aaee3a44de48be3eca7bb253;
 0xfc45a2b9bd6f41901baa7afad40cc28d4479c304d101067c3567fe449332eb0;
 0x378bc3b5a32cf5ca088227c5b6f0a566e0b75733c704804619e6a979bc1d36f;
 0x255375346beabd092bfbfd7278b437bdd3c18bd951d7f4220cdc5013611fd9f;
 0x524853a2a9717af64500fec836c13807e5978be32886047bd3683a5a65b6859;
 0x1b3998553154fc26ce88f0488160c244e1dec648b930c132d077cb93997af5ea;
 0x12074b4d83e92f8e0ab92429aeb5270140338a97ee8e5c74f2b599d9577f25ff;
 0x1a40b1e01a096ea7ebce74c027536bc58778b45dcefb7cc056256dd07326a662;
 0xf5228bc094b9eec1967d778a2b7d6b4de58ede8e0f974165d37ab6f2336bee4;
 0x27314b961d2f96970977a33f2fac6823c043207e4b6a48a05537ea78d779c16f;
 0x2a78f5bdf98afa1da6dd45ab360b877703e1f9f0e797fecca45327ee4ab46595;
 0x2cfde59ca2f01a27fce554c265bc23fda32ddd9dff3dd0a2f1dfddd0764c20b4;
 0x1925a7d1cacee560010f843ef5fc9e7b0294667d871d49e3523a88fe0af56aa;
 0x199ff4bbaf94ee387560fbbec395db1af9eed9f50dd60dc3ca2cb92e92452263;
 0x26f7f91d959cdae91907b28fb2f149dbc275f13d55776da51a88200f8e7caf09;
 0x24cddd641b7ca3bc6c4d257832a5ae5e92126c3bd2e9f05e012731114d62d0c2;
 0x18547edf50bd77b2653c2a53284c999dce5dc69dd613804d10a0ee96bca55738;
 0x2b27178eca4b798ba72b2e6b566bdfeccb2a1e60d8504e4c8ec9192f2baebb;
 0x3020eb88ae7acfd6342709f3d3be45cf2c146bcdc906ee5795273ae4b6e7004a;
 0x54b81a6d3b1f002230c4cd623f77b0fb6eeca3afefafe694544eeeec1a170f;
 0x4d1e03c93510ba6fb49bd9ab51063d3b15e48e2ed449bda2765d03065f6cffc;
 0x2ca6a28e6b98b8c8220abc091a2fafe86f271eef1d93864b7b2bb5a160dd8d99;
 0x2a586600678651f144bf1e54de3d6f8fd519daaf4a4ad9a1f32233e89f9d6733;
 0xa94a9fb854a3c53411d736ce58dc82196b2cd13144a240a6fe173508a221d91;
 0x2d336c647cbb5478e3a72f20f41d135d35f96fbdd9b2b2884e6b23ec201e47fd;
 0x3dbe3f89948f9f4715c491a483dfbf6f6f9dcfb5853c5d3ced707f0050a218a;
 0x22466ec15338114c3b316b2d986c8c0d3d14800d82275a42f476b0ffdf9435b4;
 0x1c2d6c5b182f394e8d36999e91a9eee77da71f5490961fb783a4f8e6f842e687;
 0x4fc56515cf83247e370e48809d3bd245abb52638d86b48a1cb743167db2294d;
 0x1aaebc90617e5aa4b4f9036fcc5092da7edce9c110e3eaf00d7fd39b17aaed27;
 0x15f7dad928cb34e6858a2deb2f9d92c452a535a096c5d713f7319c0c577e413;
 0x60028307221323f46eb56773c5320fdaa2d7123875b420176e34b3ee079e972;
 0x157b288cec9b5356e60373bfa43e67511e2a7e62493650c8f38d819fc34e59d0;
 0x88dbe88f3fe8fdcbebc34ce3f00f07fda411d780ecff1da57660aebfd12ebfc;
 0x9f13c89213c82d5bfd38f8f8bcfe46fdf403d28e6d349ec0176e37df9c912fe;
 0x5bffad53722ac6c42236124c3200669abffa6dc923fbe5141c8e4157cd317a3;
 0x290a7829a4cef2e25d2f6f28421463344bfde52203d4cca736573537af33421e;
 0x9e7209dac7151697be17d3e3ac52b0ee6467929b878d814ae4cc2734b39348f;
 0x7629f5b7cd3dd536df6a866a071fb5df56352fafd0f097711cd1667ea344039;
 0x11641de0af5d033b442dce1f8334eafd4959f122304ea6c2177c377d55eae045;
 0x1021e806d83de4cbecb3c1650c761774e83cae4ecbbb0df13310150cbada88f4;
 0x4ae37e1e7676e1d3cf64285f704135c8cd640f70c895bdedd51ded260fbb69f;
 0x2a491d28b320ff77bf7221b59fcc2535c7cfc9c0f11a5fdc5e49c837a71f0239;
 0x2ba7c26958118f0b751444e8ea3524d45fccefd8744618e66e55679e42be29c6;
 0xc6516f4cbac8b8f29be9406c6c309df34e2da7d931133e4a34f29ec6283e9b3;
 0x2991acc7db5eb3159f8766c49d692079025b480a70656435ee70c5687daaeb0c;
 0x29d7605b413cddd192779b7325e1afb8e52ed3e97e92adf701c7a70c118c648d;
 0x2507bd3788f57cefee754d3ff5a92980dcf062ae4a3fad93ec0059eb2fe545ec].
(* poseidon_bn128_constants_opt.rs:2343-2388 *)
Definition bn_M6 : list (list Z) := [[0x124666f80561ed5916f2f070b1bd248c6d53f44d273d956a0c87b917692a4d18;
 0xa514a5c227f4cec95dfa029e8dd124c34895aa46bb27c0911f3780d5015540a;
 0x278bb49a7b4e44aea46eb0f882cb692801a6e60fdd5b5c23c63cd65ccce4fe0a;
 0xc399e9f67aa40707a203feefb0b958bbdadcec5ca34901d253d026a2419f6a2;
 0x1d6b3d5f6ea369c26f825d2362933eaa31ea35ec0a77c1fbd9e01ca1523e4432;
 0x24be510095436206dd0abd0b0cbb95c883ab304aa52598b1a69306ec981a688d];
 [0x11924f02fd19b09255aaa1cf46ea0518e3d7bfeef47421609491011db0bd0b02;
 0x192e16d17d956b257b85a652eefdf2ee09589eac5be80915775723d2cb1da06d;
 0x63edec1bed831f506af8db648d6fdea145345887e8bdcff109035a1d9b674d7;
 0x83f0df3f1a0351d0330ec3ff602ca8cc353b7f6e762c7107184cd7b423449f6;
 0x119ef188bb3dd0d32306976c19941e8664be687e7a69692da27da215a6f06d40;
 0x211610e2ad4a377426fadf7068b0c1a6c299a164c1c1a603eaed944870d0b9b9];
 [0x247fa7f022304a1994ff505456c2201ef9b717369498d3ffce446601ed9df845;
 0x298ce0c1e3113bb935c7058e7772b533b1aa9db0c0926bdc8917e5605ca3ac10;
 0x1baef1cb5509b526a42061fb53657f99b3232500e855192cbe8c940e068c475f;
 0x1a6764d5943fc4a720b4c0a19fdb8c711984307287a58b9b5f9f5d58212cb263;
 0x2d9e0ab5c06893dfdfd03481381ba86b6e6292df5609d71f2c64b2d9a79f809e;
 0x15a67d981041b1f6f09f3f9ebefd864e779d3af08157786ac077505e50ec79fc];
 [0x3fd7b19ef2c861f22f77ff810f54e277bc94eb76c02d79d986be3dcdf051c3f;
 0x94cb4e83621afd271e41bc71727f0158ebd612239ac9d698b17fe4be05b7fc8;
 0x1324564ac7bdf9e22164e9858d7fa8e368b165eaea3daf4eb67ee59c0df2e5d4;
 0x11a63a26feabf87fa66bde66cc25a922c96382d76c6a7ff48f1537beaed683a;
 0x25f16631bf77060f7ea34087c025bf135784319ef08cda2e31419ee0a529e658;
 0x49327fa79d28c12a2c82406947f77f06775b0287468b3136877701dbe7c9598];
 [0x18bd41239c3e71579a677443ecffbd555a81eeeea69352a68b67c8563c0c2a06;
 0x3d880395be93c27d649af5fd142e76b33918cb8841d5a28173bd5cf7d328791;
 0x5761b8c6aecb1a8ca4ea4dfc2c8376064a4a8004ceeda210a55240562ddc13;
 0x8ca7b64657c3548f32bef5b63ad24288a41c0b251099ad27f9434307e3e64d4;
 0x144c7a11da5a7c5dabae3f33fbd03cad86d18bc594c79a497ecb9894edb554f1;
 0x230940dcc5232658ff9c29697a3fd416d170e8c998f1aa85dea0c42d79f951aa];
 [0x2d78c3a5d28de9ff35bf0a257635196e5730ca7f40493277078cd75da8b4ebdc;
 0x28eeae6b5866ad68e443bbaf91680db7d7e2b3037e38fef61b42cbccffceca81;
 0x10c9e283159d58cb4cb2e35fde83a3ba1fdc28002ed9963d2a99f186178a148d;
 0x1998270471e9361955446b0cdb8bea915ec0675f1cd648ddcb04303507a4489;
 0xf971162627723f3feadacb28b0c104cb8f74de508752fa8d7c0db2af13de8ee;
 0x1b121c049cd1159e289007e0c9da9995cc4bab4c26fb888ec3972a8a2e656964]].
(* poseidon_bn128_constants_opt.rs:4465-4510 *)
Definition bn_P6 : list (list Z) := [[0x124666f80561ed5916f2f070b1bd248c6d53f44d273d956a0c87b917692a4d18;
 0x18ce75a35f7297cad2bcc25f0ed1bb4f7c592eea8c6903b19850511ddb83274c;
 0x138f93361c6546d69015ad48ef50af34fa9e19c6e6844a847eba9d908572052f;
 0x13c29b24c0e38e65a1b9428622ba42931bdb65eb5975e66d3c496c7fe6f7a30;
 0x211a38485f1e9db425379f4b3fe9c20474c968aba2ef8a4bbb898a8420d0fc90;
 0x2fa4d773833d944be46ec798f7d16e9fd02f51c086141af5d69acf97e9a80b2];
 [0x11924f02fd19b09255aaa1cf46ea0518e3d7bfeef47421609491011db0bd0b02;
 0x2c001eb6b378c49fc5b37aa41c13fdba486bf324eae0e0063ff83551827f338e;
 0x51071183ba1b8fde055b8f273005056fb37684b241f88851a5b550ed0cbc452;
 0x14201055ff5412f834d761da8017961213666e5c44d6c5a8237deb4d0f734d79;
 0x182177db418ecda99e6e9999c3c0492f4ec27a89b2ab554dc8165da9ba8c9762;
 0x1111d2d4d2a013e33fcad48d574587e3d7f7f6b484d7fefcf933dc833d13bf28];
 [0x247fa7f022304a1994ff505456c2201ef9b717369498d3ffce446601ed9df845;
 0x16e74e9c0932c76182ca25ffa7dc6ae62b2cfbe19142b2ce1d95ec0839d7faa;
 0x1a13e7beefcfa55aef7815712c7b350b465c0785afe7d6b356342b61047d07c1;
 0x1adcf63e81b22ad38811b20aa6175ec41784eb99fbee0f3e56a15df0c1ac5179;
 0x2f3a76ad0307b740f6e6e7aa989335c6000d930029beebee83c0631b3b435123;
 0x24dd1c38ec3e47cf711221cdaf4b2ccfc0991a178cf7df2f3d1b88f858763c40];
 [0x3fd7b19ef2c861f22f77ff810f54e277bc94eb76c02d79d986be3dcdf051c3f;
 0x24de008c4b20c4dd769afa3b377e2e72f0a74339f53c3f6ba8b84b0a85fbe9ab;
 0x274ab81953247f18a26dae90d93deb1f33ea243af6aac4e05e117e233b922bd2;
 0x16a796c4310ddbc2c435ea5ef0d6381e163250c33485426e97a566ab6f2bb07;
 0x1befbb4037c8b847d2711cda8600d941a1583cf2fe06a8ae02bbc26e180259ba;
 0x3a01ab7488d6cac69f70b90101e5c8beb78bf65a79fd6068c9010ec2e0fda4e];
 [0x18bd41239c3e71579a677443ecffbd555a81eeeea69352a68b67c8563c0c2a06;
 0x2a28f2409cb364d31b858844023279404e2ce02d38430be77b2755aeb9193a56;
 0x1b8e6cf61af064c9804f1888a6a83f6cea7c57e574c229f978aa922ddccd80da;
 0xca6769d4383398d1a04d3d7a6f3510d85fba7f5f6e6d287d447908d11c71153;
 0x125428fe689ac0be368c80b67e8b2ab83d8163ba30b4391927f352b3bf3dc5b0;
 0x30516fe884be9bad887032b15a83c91d84147d44fe15c90935ec4d421f5ed05f];
 [0x2d78c3a5d28de9ff35bf0a257635196e5730ca7f40493277078cd75da8b4ebdc;
 0x2afeb1a63b374a502180680156748121a68fd7002114733bb039f74ad576c0d1;
 0x3ddf5c61fc2eae153e94adfab9b234d07b261ad228547ba9218c4caf6cbaae9;
 0xc2e8c673f27f45ac1112d92cc8b81ef4af42657d7a114d2d6bcc4b74bbab7c7;
 0xda5ededdd0fdac9af41d58581e5aecafee671a5253023205aa9a2b7e1df842c;
 0x280364612aadf31ee5b176ccc54b4a5f961cc782168c8f83ff2ab5b4d12adc0f]].
(* poseidon_bn128_constants_opt.rs:7889-8548 *)
Definition bn_S6 : list Z := [0x124666f80561ed5916f2f070b1bd248c6d53f44d273d956a0c87b917692a4d18;
 0x6fac61a13c7139a37697a657fafd9c12611f196b60aab2342eb6e869de7069;
 0x27b4b4ea2ab70bb1a791b43c0571329ee6e44da480d8f0bfed4eb43125bdfdc4;
 0xfce2531c0dd9b1906513da21cc6442611222f8c05b5bb5ced0c5d392a1b4254;
 0x2278afba888b07c659b7d537ef4f2da49f03e42e6fd4f6ba90966b2bd89291f;
 0x456a8c01bcdcc91bda80b7c97f7e9019009163bc2613446a40a49fba3c70ff1;
 0x2e4c46b8f3ebe49417334ca76f3dad782cb15d40bd4fc143df9937aae5fdd9c;
 0x2c13f0f7c421c96b47743df05ba0a84d302823a72fa019c251cc653bf9fce8cb;
 0x57b6bc405c5ad7f6dba556199efad30bf33380cf4bf74ec23214edd123676a3;
 0x2d127c7a346cdfcc822076c8df679eb5cf6bd0b6a1fff70f753f1317acaaf8af;
 0x1a4dc6959d65fda6047532a57790a1426499672d67b10ea360603bcdabda06e1;
 0x124666f80561ed5916f2f070b1bd248c6d53f44d273d956a0c87b917692a4d18;
 0x1ab539242bb16cb2ca4984bc82002d07c6fc29bd0d9a71e348669ec4f909e567;
 0x144bd8b4ba25cebbcc44c0847844f5d945e389efb61cebced8ac7740104e2da9;
 0x8325106daf6927a182c4d83e0bbe039fd390e2507a359747a98d35b41bf57;
 0x1469c5365c13ba0cb10b14f109d6893eba3239739e970ebc50b63a9870da0ede;
 0x111e82bf1fb3d4458829cb1d852b66f7c2ce4079ed210c88374dacb88c69c252;
 0x2bd6778059c21f8d5df3e825464319ba8d9f0fd7b2bdc4525ac788061031eab5;
 0x212d3cc6c2012c922fd9372f6be58aa0518c392a9e25338071401daa267e36c0;
 0x267547f0b00c32e85957a425dd05961a02626ac79b2eee417af0c450646ff99c;
 0x15f1012eb18a32c69ac392696cc974530f711109a197501b43d9b49c445d9dbf;
 0x24e5916738efe20b55496e3aecbca9239063458c2c562f3c0c2ad45ecb9a0c27;
 0x124666f80561ed5916f2f070b1bd248c6d53f44d273d956a0c87b917692a4d18;
 0x537e9d61e32a91ac981e5442837942833efed46c25b4009d6622c1d5cd67228;
 0x2409867674021c13c26db12dc4687258c8a7b8c39ea9e5f0e538c9a5d79d00b1;
 0x12dd0ad0bbdad721a2bb795f4b54e08a21e4e5043e30bb1fdf1e369b45abbb8a;
 0x194d2892087f1485580dbd9db047343f73d71741cb1d679264d0f15f22011a17;
 0xce1f30705772a51b72eaffe307f73c59d16cec505e28a06352fec8497398b6;
 0xb4c42bfd8b2eee4229dc6b4b6ae934b6882a560dc0b056952cea95e04e84ce8;
 0x2831274ffa49361ca9ad0f3687f1fd840db43b13fc4bd747fcbcce877ed78fec;
 0x11c3faaea57cd532f952f56dac42a8d29c72c8d1b29459ec218d5280c374e141;
 0xd01440afe63c28b5820215a0a082fe296ae749a3ee6116967d46c4b9d59b77e;
 0x27fd7799437558165b866c1b89762a0b94bf7db886b158ce62dd2ba01dc6fd48;
 0x124666f80561ed5916f2f070b1bd248c6d53f44d273d956a0c87b917692a4d18;
 0x2aa5a2f43e0f4bb8b52041f635ec810e7fbd82548dc722605bf2c15e7b2e044e;
 0x109e17fad36368fd93917a9c4919820ac8620c5baa64d813f420f25f0e97a087;
 0x1c6178a12c2d4fc816077f0e4825fcaed9b6ddbca03d665be624cbef3df6c10c;
 0xc8b545f3ba3005742d7867b42b2acb3895868630d4d1ca9bd2e7d18b22f7b1d;
 0x1cf272cf45a39a8f47599447b65ed8ec169b564e656acd8720550f78b1aea9e9;
 0xed81d4f2b8cc774767ad184b89c02d1cf3aef1866d4b8df571a8feac7e1fb26;
 0x25c22916d7c3d030b6207eef339a432d2f2a485a98a63fac53be6a93d90cdcc9;
 0x140c2f65889d437a0736acd2164839f1a951aa1e9ee18258b701b19d0f880820;
 0x19b9bf03c47ce774ff4541d66232a3a61a1eb767c37ec93730c2d29b43ec2d0b;
 0x1464a2e5c87714bb4afc1b5cb90f1cd587ac7f3133e7f4a5e45d0426bafa3946;
 0x124666f80561ed5916f2f070b1bd248c6d53f44d273d956a0c87b917692a4d18;
 0x2fdf0895b6e7dd081135a74466610d02ec2f5e53d065f8f28f55626f8984590a;
 0x2136a6254155d5370c654be03d5f2ea833abac83f3ee2aa86080b4c812f6d9ee;
 0x2c25045d4ad7cabc1457656efe3091cffa14b2a3c3a74cde1619658015d69a3e;
 0x35edf90ee5ee2937a2258e02a11d996be7d2263c30a8111a8f461b31b61d756;
 0x24a6181596fefcf6b89c799218467001223efd7b39880e0b241bac300d20a3ad;
 0x29dcdaed731430d9695b46313d84713e6dec7b565f79b94b2cfa3dd7e9e4ea51;
 0x1724f4a9b1696abe55d95e9c0dc048d1d473394ccf983f198d9e90d2c73d1b8c;
 0x1af69c74aae418d0fa8d9c030ebc68c04e608e5a8cc00a35b1910ddbc6fcf143;
 0x27a0793076b09c2b5e775c8b738f488a11171c0066277483afa7fd8c1dc5bdb0;
 0x1d4ff6c75f1778615e31525a57fcef7dfa5b5d84382b5efe78fc90625f8e1e12;
 0x124666f80561ed5916f2f070b1bd248c6d53f44d273d956a0c87b917692a4d18;
 0xfdf45f1143c7650173ddbf41fd32b101ac1058dcb360e4f55fb042d86b3bbef;
 0x28605df321f1d74a93860493ae581fac9bd5dfab8755373d8bbea346601a2a1c;
 0x2894568db7debb47fdb42ebcba7bb4c2bf391c73c0ea435ff611a9a721a2ab09;
 0x193887de99914c911549cd4c5a402b7b33e650ef0009d7c99075bee089ee532f;
 0xe5688ca400eea76906895ad874136e390c7545ba17d0b64b9da48aecfd53d91;
 0x2c60db3843ae2171a20f4eeddff7e6cd3bd2b06cd8d39e97f93b895a4096371b;
 0x8fb4f2d9d8a12c667625b7df6751d25d3409df0443411de74f779e90109ff34;
 0x4d7d91e3652705f015e14eefc3aa412c707a8615d7dc336fa2da72d1a1802;
 0xc60ca70bd06719bcb51c3a8664b73f8b921234656168e68d4ff6e9552808d54;
 0x1ed054abe9f3b4e19cb8a439399c5ff5f6de90c8463a09b82da225c567d05095;
 0x124666f80561ed5916f2f070b1bd248c6d53f44d273d956a0c87b917692a4d18;
 0x2b3d78867b390b2fdb654d68512c316ec959c5b8c9aec49d5fe74188257c3b6b;
 0x19f72308eb341f3328570cdc9f78fa3838e628260d6e76bb3b09cb4e5136545a;
 0x54c9fdfc6bb12bd2061b153f433d828dd2ddf02d56e4d6eb280f19591597d9;
 0x20a858ce8c00fe452359acbce4df9110ff6c89a362ff4c8ccc7f9da470124a1c;
 0x1a55f3dae7d4d14c6eb851e44463ee0da6e66b0f56114b8f46dda9e717a9b1fa;
 0x65d52f3291af23a00e2d058bb6ba8e17889f7d03bfcbc5234272ae8660abf31;
 0x278715151d06026cdd68f4bb0fee4b041cd0a8c62bd5faf71b393ea9dc3bcf2b;
 0x9c6ec8631ac5a417f041efe2951033a622baf01b9f1630c7bc093ccd6f3fc60;
 0x9c078b2310e182f40304e342c5f965f8605102931254955aea231962f762f75;
 0x22f4faf4ed2ac6947282b926253d93751ab1118a05d1466bf117dc853dc3c532;
 0x124666f80561ed5916f2f070b1bd248c6d53f44d273d956a0c87b917692a4d18;
 0xf24da597b74c3677589a6cf15426219cd0e2c1a60c9acb4b9764b8e5b4fb5fe;
 0xf39e91701d900bc7ea63b7f0d3b753cc31d2cf6666eef786a6400ad04515c96;
 0xb41187c60cc3bff1020fc4e647452ba940a5b3d9ffdd1b47ab613a515df66e5;
 0x619fadfd7cbaa89e7d5558c4d23275665531928f62fb14cc4aa42605f97a1b5;
 0x285ed3287367338bc9387c83fb8987cadf1b4ea7f1dc6b172e924ee0fd2ffb87;
 0x853d29d7e18010d04607ed8b3089833d55166ebf58aef558b3642f29ae2eb31;
 0xb1d3737cb97c59030221a7d5d112bb755d096d8766242158d0bad07bed5ba9b;
 0x272b60326347683fbe6dff2b97289dfefa1be8238526c8067ee0a126942ca6ae;
 0x2c7ef420b2bca189f6d7929af54403354933d68446096f3cfccd12e76818b23b;
 0x10fa5605e0b680e055175664a979aea1a45c45057f452e5b90cd613012b70508;
 0x124666f80561ed5916f2f070b1bd248c6d53f44d273d956a0c87b917692a4d18;
 0x2ad6fe66fcc8eb73e2dd7dc6a2186c31107f8896b5f8c7f9ebbac9bacffc59;
 0x1db23b49760ab87c22237095db005ad9b792ba63647031f2f5e8d0c66ca2c833;
 0x2b51ab38d81609e885b8d8c3ce799cedac1febdec5e27a205ca82b010b3bd9f8;
 0x2bbd8df986114303d59bf8a408982796d6f1809269b983910bb6fcbbfa72af53;
 0x3516ee288a26a7555d7bc66bdbec4203e74c105513cd8be87a99c035a176c22;
 0x21161b2869e0be07d85e11051ac0d8894044cf1b4715d5dedd57cbd6aa48b240;
 0xf4723c169e787400b2153bac8a074da0d992f44a8558a0956d563e73ac03dc3;
 0x890ec1904c98ba5b3cef6bed816850fdf6734951b143faa0c2c643a1c1368b4;
 0x1453882ebd23e2ce3f5655eb4f2db4e7d6dcd892a14e3da655caaa5f45a2744e;
 0xdf69ed4eae9a6ffcf54a77d8d8ba14541af9d276327678b71e7c49c8deb41c6;
 0x124666f80561ed5916f2f070b1bd248c6d53f44d273d956a0c87b917692a4d18;
 0x84cfab525ae12db3c30220f978a1b48bb652c2e47d1f5f4bf1cb3d5ea4ae0a1;
 0x220ee2aac4ec50cf3a51d76ea554c6960befe1a9b946be4b58cff8b4d8a16561;
 0x9d60891cc06c285c3ca3cf7a78e37e2516e4d0ff503179234ea12645848d45d;
 0x2f51338183dfa99604f1be042cc1dec8e96e08c7faf7bb3b7eb860dfdcdd295b;
 0x29fb82b7e1ea4acf9d2ca8b32f27e68d10b27214361156770bfa4732f85e1b01;
 0x24d4646bb66688b33367aeec4cfdcfe16b7d21f47f1bb1f88a25896e526ecb8b;
 0x2cdaecd1c5653769c095f9ab2e0b4131a3dc4f581954fa91120dc7864a5d5b5;
 0x2e48eb6f5a9dd830bab11e8f49f7431a851938335f6af547bdcde3b9a2595913;
 0xd3d729c3d04c7f9967a7f3ce11c053d5a5598f0847966dc9840eeebd9676b11;
 0x2c9c7d8f5c11a1cbf89ab2b794739a371d818f77cc71bffc6ca55d4472648f2b;
 0x124666f80561ed5916f2f070b1bd248c6d53f44d273d956a0c87b917692a4d18;
 0xf330feb7fa24cbfbbafc2eae5d109a2bbe9d5358ec7a34035d728c6a531b17e;
 0x1b4af72b65b66913013263c37d97ffaddbb8a824b34d45819029b0867ccfb460;
 0x2ace1ffd40f56f145cea9e679db6c57732315343423ce026a8e9275e888307fc;
 0x1c328a5168d04cdbc31519e037fdcc5c426f9a6990fe80c875d625880c7d033f;
 0x1970922d81c9cd97d3030d53733e33e3d046684219f4960ecdd0910f5aae548d;
 0x76fcdeddfca38e6bc4c5e872eeb1628caf23d8d7b966d97963f38b8b55a86ab;
 0x3e273f1f05592ce120df7ff9ba32eff1c1bc065b149c2c2a7986c1569e4cc3a;
 0x2b1f8dfec05e8d4495fd0759474932a003b11289a3440792a48e2cb777badf6a;
 0x126fd80bd8f9f83f00cc51cde97f9e4a3bd540c93921e8f3603c0cb13f89cc9f;
 0x7cf5007a4ecae9f4cd74689126175d8a81f7c51a317a2c1657cfcd533b4a57a;
 0x124666f80561ed5916f2f070b1bd248c6d53f44d273d956a0c87b917692a4d18;
 0x18793b6ef20fbe077cf212e603b2a491b8b9965510bf81c85b4cef874fba6093;
 0x5bc7621748131cb19ae5e7e6cfa468344c116dd37fae01e1780381f9b1ddebc;
 0x1aa859447f3acaff5c15fbc24bf7c164faeca846b555b02637fa84a52cc9efba;
 0x28c3d01915f85693e04821e4f2ca799c62b1fdc4739123d8dcdfbd1c77636c1f;
 0x2c7f8527d2ad7d02e7046dbe690997f033e351fd18d357089e988e041223f15;
 0x126b669244c7ea73d340ded56f5edce3632a0a69b9cddede297acf2f072db9c6;
 0x24f71ee920c1cc2790112e7a8e9d3d824255420604fe31b331e98d2bef539781;
 0x182fbdc24f8599ae291b3e8a96bd15251396a94167c8e34ed1f86069c067f03f;
 0xeab7f1b18721b3c154fb3b7fb067c4f7ec18a50fa3ab3aa5873a408d6d8cbbd;
 0x2012fdfd4d53aadbac3d7ab9172a826705d55e5862d1be643cd4449e1cc6b06d;
 0x124666f80561ed5916f2f070b1bd248c6d53f44d273d956a0c87b917692a4d18;
 0x140490ba93d42481632e9924a725c65bf59f7e4975e98fbdf486a9772f4b6e8b;
 0x2adfb4e0a55448609a06a1ac31bc5d06d74c45a4dd23680923d985b867f054b9;
 0x2035a526748b686ac46231697cc52fb4c6d8e48c4314cb0a1ee08eaeb43938c8;
 0x242ec6b33cd2c625d1ca2833159053a0e9beeb37c59ec90e52d40c983e865096;
 0x10f8808d7f88620998e3f144046327b9522a07220a62c7986debf2820accb611;
 0x5d4d8a6023401b798a1b296dd42c9010da081b9e6073aa73dbed7a98bef4419;
 0x20be6be68c47dda41e08c5f858520b25c036923b978fa8be6e870e85fcc16ac8;
 0x39240da2e14965307bd9be9af5c0cdda03a4019f86c45bbbea90f40afcfc500;
 0x60457249c4fffb06481b95457ec48e2b795dc414d6b71350ad08b56cdba7c3c;
 0x239ebf95f3d5909ff12820066059f1b999f9ee594dc03af1fad6e0015d698e72;
 0x124666f80561ed5916f2f070b1bd248c6d53f44d273d956a0c87b917692a4d18;
 0x90738838c7088a39b45b7b8466e003c1d0b85fc0c95153e85f9feea552cbed3;
 0xd0aa07eb53bc77f6a7c777fd33d11e4eec54afb97da769f937310f797df2469;
 0x22e87e33862f106af8bf1a6ac33f69d994ce06f021ad32236f5529eb399a8ef;
 0x16a3ff860e2110d98eceb0f5e7946d207273ff9a4f1e088a009f1aae19c5b0c0;
 0x13e35cdae4c6ff35a681118ecf4612503081b2920a59f54cbf5603c5690ead76;
 0x11dcdcbb80fe328963d887aa5443a88e602767afcff3938a877ef8b5e6b62084;
 0x1440ac3cf3a1ca78709a2a97a0255d08882b40ae287994670dc7d58d7b929c71;
 0x9112aba3d285034fd7808ce5c69caf188aa2192e3143ca73ce3ad404c503a9a;
 0x2c8eb1b5f21c2f320943badb09721ad68f1c2f3576531713981a905daf415450;
 0x695acc1afc2070eabaf2e2279eb6f11d6e24c787b37f3a311f2bdac5cf0b160;
 0x124666f80561ed5916f2f070b1bd248c6d53f44d273d956a0c87b917692a4d18;
 0x1fb55d0f07f478f8d6f5a59e0856ad2bb9a4e1987cbb36e437895230685ceef5;
 0x24ffa19b717061f29d7befe633215f277119ea89aec1326f9f7e2fb3773f3a5a;
 0x16cf73a3eb3a86fe74cba7ab2b591ecf57d66ffae3113107298e11f21d7f69e5;
 0x115c7124e48b479e39faf24d853540716cea1bf2fdc19fdec358d1f740c1f874;
 0x1587c165c3d5592e72a8445bab791271ce64032bf746d66194ba23a413116cad;
 0x20677bb9ac0210a06115586f21fdcd1e6b28e8a1a8664e48681bb077b75e001c;
 0xfdcb34056ef1d893287ad074ffd8e4d767ed07f9ac97b5de1f34d8e3dd1a651;
 0x19ec313123a0d8e63b853a0931c9a99b14cc775f1c312bbb13d5d53f8818b79c;
 0x19c0eb17f727d16dc136af9e86888808b870b5e9e5d9e3a3c3f0d9431bdd5728;
 0x2b158fd09d9bb317ce4378cf6e0d574374690d42cc465100ac3f9a6bac9b6907;
 0x124666f80561ed5916f2f070b1bd248c6d53f44d273d956a0c87b917692a4d18;
 0x67895e624f72c2ee73f06438d1e38b380f0259e6a04047dc2ee474d543df74;
 0x24d801233a58b2016b8c6af6bb88cdb17e194fbd8c619a7d844ce681b933d5f1;
 0x18bbcf6fa75ef7e68070f388815361f028acdf41c8e0d9f2afc62b8bbb9ab94f;
 0xd8f16cc1dac32ee244cc1837b1ba594c32a38e1a594a6f1367af545463db7a6;
 0x85b04652f4427e9220976032ce4aae7e1eca676f0c169f9570bf91014ec3d60;
 0x29b6e637abd64aa25e69de1bc8bc2061010a523a6319d49c8d908c46c2e76112;
 0x686bc450316a122c312fde6bfea7146f929091962bbe3225769f767ee92e1f9;
 0x1c7db281138ff861643018caafaf569efa4f7d1dd5fe8db8115679c9d4e464ba;
 0x434b9adf694ee77662c888fe50a3f24f9a680df2fb6f501422589800c123cac;
 0x26bf3831811b3222ad4a14f3b9a5357b756702139b7d8e7e2bb87dd6034b352d;
 0x124666f80561ed5916f2f070b1bd248c6d53f44d273d956a0c87b917692a4d18;
 0x24b42bac7abee89474ff328bcb61e4ad5f128773e068dea11b88fc2ea6ab66b0;
 0x199ed05bbee1131c4dbba92583a02fbf9ea30aa59c7f2fc5bd5c0857cedb470f;
 0x2bd6670f967781e74ad00648e01596abb5117b74adb95734ade1c81fd02d100a;
 0x17127e11451908da53f67a87859373b4c6db941086091270d35f7742e286bb63;
 0x292010c36ff554b02f56a128071f54171b237591087f805189af62b616205261;
 0x2f6af6bf3c24ccd04480e6490018b489284a951f067750f4e8b461290402e3c;
 0x11ff6780b8da3672a8b9eceaf9d5ad240bf0f1d91028f3abce5147d0608449e7;
 0xdae6cefcea61ea52cc1bcd5bdd0c9a4f1cf123109cce7354405dd38054a8b2e;
 0x2234fe0dad3dd0ded7a39050f4478ac43bdcdeac99cb7ea75d61a66c2382c35f;
 0x1627a2a755f77f83d07a5cc58dc2aafec9ce48a85427f07f813e217e7d3e9272;
 0x124666f80561ed5916f2f070b1bd248c6d53f44d273d956a0c87b917692a4d18;
 0xbc958ac5faec064de3de070d9605135bb3bc321f74b7f4795cfc4cdd4f64c7f;
 0x1761972f9f0d7d67e62f476c88b521ebe60cfe3e1aaf50580acd20f45590507;
 0x3ae68549640072b1b75251b5fe4b2282191f235ff9a753fcfccc995a3ed3734;
 0x1d3a95b2449e1d227b3cb97854bdfa5248b78bf8acc15feed87036a74829b12;
 0x1be688f94403019eb20b49acd9f201d5b765853301e9f30943647cdac98a983c;
 0xd40a2c767f9d882eb478793e2e146af99a620af4a76e6f3429d6259149311bf;
 0x2075d588d996d67e08cacafa27bdfbb6ff08a0d97d2b6470f475b87c034fad40;
 0x1db5acabacf79eef4e6079222f548fc488438af4e04f5f8e64f37a80eff37aeb;
 0x14042fd27044254958665e0fa0ef7ec155c9079147eab6fc55c9d8c35d433a04;
 0x21ca73c94e245ed00ec13dcbb943bf4ab0ae1c29b0f3c2dd27c7ed414a39c2ea;
 0x124666f80561ed5916f2f070b1bd248c6d53f44d273d956a0c87b917692a4d18;
 0x20ddb53f4160aa862028ef9ffc0ca24edc8e7ce304602be7e8db7a7ea7aa22ac;
 0x182fcdfa75858b86631ea8d0e0308f3e1202f77cab67f448c118d2e47080c137;
 0x28cd7a17b0f3349700263450f631d80337f6f6e490e8736b4c322f77c6eb94b5;
 0x4a6cffef8bf0db8c769ef391c25c8162ad2588db68f202adc27f23e01199f97;
 0x1f208c20855afe52522395aa73d971db1dc111dc531adef15f24a91fd6cf7085;
 0x107fa0c5c5aeeb26505669eba119568c4e249d7c16da6fac168de7abe11b444d;
 0x210dce59a46fc548ea60317c73249bc85062f0c2cef2944df4484f967c6248b9;
 0x278cd8d83323de48695c3da57cce026e001525a3dd65bc57ca2612b3c6f1cd82;
 0xb9cb7e4dbe036abc7cb070e610b96d61b7fe2bf29a4aee59d5f051bdf1b942f;
 0x2aa13fa2731b295a9974aabe82b9cf343d27373cecdb3a83e03e0aa3af07baaa;
 0x124666f80561ed5916f2f070b1bd248c6d53f44d273d956a0c87b917692a4d18;
 0x11e4ba066ef8a6cb251a9704dd23abb5e8ef31ffc2048d70400ab4029486d1cc;
 0x23578b304fd7b3d28d886e3d71f029c849885c84f9488e5687e5be7fbc2d2e4d;
 0x143068c60714bb1eb26b0991681a9117decf370a9e1a24ff5d2163fb6c8bb770;
 0x1a42d3af21b7f72faee430f085becc8598c057127907373ce297e1c1493715a9;
 0x260e79c967c0d5bc720f95ec7a7b088051dc85423f798776f2de0e8c26606002;
 0x2314b014bb5c57a4217f48112e9c91186bcd27feaa9a1f3800fc6b2fb6ada2d5;
 0x10ab73560f145dd61d66edf15e597c73871a80cf0645b714e6e7268bc1b59bd2;
 0x2da780f43e972a1ea7844b5cffe76215f0b86f708c3d0ebc758024a3328c67cf;
 0x26e5fd2c13423aee6c1a543b5d4fee91af5ce83d74efa84dce6ab9323d1644ce;
 0x91cf8a0d9aef97c341241ac92fade04f1f21f20c9af67c55a6a63626b73befd;
 0x124666f80561ed5916f2f070b1bd248c6d53f44d273d956a0c87b917692a4d18;
 0x1ac2da30c9db6a34995d64973ba9137283144b108b9619f678cf3f4a95c096e3;
 0x11376660bfc8fe7104c949626d350f6b0dc1b37973819e4797017487619ec25f;
 0x21a72bfc29af637d0a76681e97a310e9ad1dc8b47a66598807e88fd34a46aa81;
 0x1d61ed0d0221cec05abe9d2e8c0f72cb74cf4ec2df3ed582d4acfc2afc972f13;
 0x2cf2377f25f134cd525ddc0a210ae1edc91adc51cfbd451a7b280d332463fbe0;
 0x128d871cc9d69dad9adc58ff843d01210527b2e434fb21b3770a9a7e639cd55e;
 0x180f7db2b079ef5027f9e517057b6186136b6631556ed4979d115704ad305729;
 0x271f62e52e4a218aa6d6af3d547117c04b4c082c24950714dff89dc0ca70cebd;
 0x1c33419ecb6f7066567d7fc5addff3010852e87e68f89d6b6dbce38850401526;
 0x1a75ac0eb3ff4f7b647206b926ab9b6b70e54815c7d169de9dfb34b4d9baf9ec;
 0x124666f80561ed5916f2f070b1bd248c6d53f44d273d956a0c87b917692a4d18;
 0x1662417df464715005ce1228264c58708b62a54eb3d0300c7e2ed1017828f1bc;
 0x1bc3d8189b4c0993407f585a4e859ff2d038b607f678602ec2ee5af423dae356;
 0xd1fdc7177e273bb5962f8ade3aa5d858ed7fd9bbd22b2d9856348382e8481e6;
 0x2e847d92b4b1cd7198df2d2bd91b845c52b9d1f25d685bb54cf43d7cdc06a89e;
 0x2116ff3bbe130b9b1bd4b76f1cb4b4d7c7b472cefb4d98dc08789dc993aff289;
 0x1057a54ade240ea545bac05e9707460d7f0e1930cb04e460e261852a5aee96a1;
 0x24c6693b4bafa19500e73514069e278c2abfaa8370d62312ac7dff2d8f973327;
 0x2cb268850f0ed89fdce142c8511d2f583a22e580cbb3d0790e41bc7e47420331;
 0xa731e96f407cbd92e535d4a18dd9981ce5c8e4ab15bf7f5eccd29d831b0712e;
 0x9f9e3fd0498d86308ea480d5ffba80e367c19fb4a78b11712dbab0011cae43b;
 0x124666f80561ed5916f2f070b1bd248c6d53f44d273d956a0c87b917692a4d18;
 0x4670b146f637567754612aecee2b9bfcb842e7d6785b7904a3b1e37b740d4c0;
 0x3c5e0facfdd5fdebc0255a4f78af5fc16c82892038137186db5687475ee26ca;
 0x23a34dc39f0b7bdf631f9c88dafedb4bade20015c869fc463a25b7c483254b57;
 0x20a919d5f1fb9b22abce924797ec204d7cf534a9c5e908e57315992edc06062b;
 0x41f1d89022bcd40dfcd978191b200f8a2b7adb2168f3202b4f2dcce8726d922;
 0x23c914f4087c43ee789ba6be9c4b99fb032b7b5f65ca9f3af46e14dadc38134d;
 0x2d61a559f806a5e382041aeab1d5456dd212c3018ffdcada5235fd842f37ae0e;
 0x2e5457db2f94992120c5c9054a6a45974270109e5c6b5a4830e175c812549aa3;
 0x9f4292ce6a22415c7f83c120b5613b9b66fae13bc8d1b1af298418be41079c3;
 0xf82a2950fe7f2169a76eb6c5ce246ded654db2f03ba27e88030124d9ceda7f0;
 0x124666f80561ed5916f2f070b1bd248c6d53f44d273d956a0c87b917692a4d18;
 0xc8a9b44c11b429d1cb9eceaf7f5501e9f0a400fbf4f0ff3fbb5f977607542f7;
 0x116275de531eb4f4861812d5dba5dc91ac027d187072cd9aab4ebc5c316eaa0f;
 0x10face39f20b71707fe83569937fa20ccd528792796bafd01dc9e094ba7336e1;
 0x6cc30ed5380e3e57cb30f3cef40f3c49819eebd7784a7b0de815fe2c007956a;
 0x11e62c7d02773e2a4bf5e2d96b2e2a7ab172514dadece61b41632f613336200c;
 0x5688b27d4a2435fb45c8d5f3743b0b1cd380ba6ddc95abb6f117aadbdc83736;
 0x22e95383d9f4bc94e9e2be09ed243d6114041ffc729e7edcc238dd82c7d5ad19;
 0x1dcf7620094c223d73dae01624272a7706c44ea51c959df302fb6e91e70f2501;
 0xd686d6407ba6f204fb927b3628ab5becc48de21f3979f6818cf12b76f7a89c1;
 0x4059e8835ec958751f897986059ac067fecc5eef0911b714170e73c389169fb;
 0x124666f80561ed5916f2f070b1bd248c6d53f44d273d956a0c87b917692a4d18;
 0xce22a6f7aa9168150d064857ce6f891c975c3191bbff919474702bf4c8d813;
 0x194f2018abf3467e78243e36ce971440b9e8aabc83687a0851c048d7eea72729;
 0x29974bc9d401f128049f4732d6610eb9f269743fa28db231db6ace55216d7764;
 0x23ad853475090c61403fcef91ea2d8a36afe29741569acb39f2e5333921739d2;
 0x4efe76826f38d11a7a761748f9622e4210ddc38454bb5329eb9cd5ff5bf4556;
 0x8a2e45b2884b3bcb463f58ca3a7e4f2e7f16aada17a609bc358e339486ea6f9;
 0x1c22ab2592802c8f64a76cbf083074d7d72de9bd3f8d993467b00dec27c6e28b;
 0x180c18b59f0dc43c04da21fa47b4bdff8fcd6d845d886f71855c212307514f7b;
 0x146346178cae4f0bf5bc9dcdb8e1bfe21a0ff0d80abf33418c72499e70aaa225;
 0x301de4fecad713260a57d4ecec83a8e4966d1b89797805c4b8f2b6be9561d1df;
 0x124666f80561ed5916f2f070b1bd248c6d53f44d273d956a0c87b917692a4d18;
 0x80ff1bccc78688253119861fa90b44fdac2f5d2708a1be1225696d47db0da7a;
 0x2e8300243648b888b59914509ba219649e3f28cbe190cc3dfebb1c083a7a7fe9;
 0xcda045c07fc05561a686cfa9e82c9fa0774f17f34450dcfdddc1d15f88b52a3;
 0x21335dfd5874c230f903aa6249f64cdffaf2b30a19b4f8b9e42e6dc7472f3521;
 0x2e7bfd8d6d903cd0d2722ee33f82aa80805629516de6d9091afe9a1613183c05;
 0x443b099429cd33864738e414391c37d032dfc795378e8439afe62eebc49d241;
 0x215a81cf42f2710c48f96513f2d1ee0d350ae57ff01c96daf3eafbd0b769ae8f;
 0x156a1611ff9933ccf069fb2156159851c8fd02f7fc27bd5bad61ad00826c72b;
 0x90d3ac25b80c0f69e9b306380d3cc0418a5de630ffac363ec793a0fc54fcf97;
 0xf53453418098174e3a6214c9fa8b59792048cc0c963b668feb4b79fdfdfe4d7;
 0x124666f80561ed5916f2f070b1bd248c6d53f44d273d956a0c87b917692a4d18;
 0x167dcc32fc7311f7c5df9a1d2955a928fb6a1ce771019241fa491c655c697381;
 0x2a191b6a2f8f96da4bb2f91cd377b32fc8e84aaa857e976fecb7dc98bf518a03;
 0xc2fd4887d8b704662b62339aef5380e2cfc1eecfde9a4c9c14abc52c2a0a8c4;
 0x1e630649bc36af20c735f3e55a10e18fb1192eb537dad2b23932079a5e3e039;
 0x210302a02dd75f2d3846da16ea7c309911eab034fb60adeb5ba69c1b31b8471a;
 0x1d9e0ac6e8f8b9bfc77b7439b345b772596f8cd23370855956e42366d42a172d;
 0x2a6cf61cb3658480617be7daa4072efe4c2063b9777c1fc7748cf00ebb670067;
 0x2c6d225faad9f6f0959163a42621d26c7c91941196ddac67a618b390bf84b5ef;
 0x2d2cea26566fae8c2853a5976075b6d73da65b6a7156ab30540aa9db05d9aa29;
 0x2e13c310c5e84e55bf6453d9cc647f87c90dc2625f366a6dd61f60a0b38ca3dc;
 0x124666f80561ed5916f2f070b1bd248c6d53f44d273d956a0c87b917692a4d18;
 0x18f8e2508be0983a6ad4de69cd797d5f3974c5f2e4ed2dab4e67db7b13e9119a;
 0x122a34cadaaf871dbf14a2626be775882ee4653beeecd92d742541350f929c10;
 0x1eaa9c56276ed20072675773838cf7f72966a70537bcfc85874821b40bbcb7b6;
 0x10e0b85cefc5748eec9d7ebab1e9cec57d580b3d66e5b47772b1faa267eb7fd4;
 0x961d96cc4f121a184a78db78c217fa96c22521ef88e9f454ae88ac934832633;
 0x2d40eb8157494a91a99a67959fbefa10958f2f96111d46461d3abafdf3f89735;
 0x21807e2e88a4f906a998c7d9c6a395aab2c1a09b38878f047cd59a2e61f8f85d;
 0x2e19eaca5d16c8bbb6ef892613aac237eb47b65c64deb2d167904d719edcb77a;
 0x16714242c7b7e789d41c82a4c9722d57e294d6a566f6a48cdfe79123f8c1d32a;
 0x5566d38792f0671ce10c1ad7e93534075f422f61928eb6c2e4857e2ef1fa242;
 0x124666f80561ed5916f2f070b1bd248c6d53f44d273d956a0c87b917692a4d18;
 0x13290f24b105f48dac27734782f076151f3192c0f432da08f73ee09570c143d6;
 0x1b4b953ada89454c82b19e887dfccc01784fa68082bba9a561beb496f267eaf8;
 0x2613eebb5f02fde5560e2f1aaedbe7ac32199983ff9ba2cedda7ad9a6d3855fd;
 0x1aec57bd5745a26c3c0219ef96fa6c69250bf9b6584e371cab2aa2bdb7ae4990;
 0x67389e348c3409b4cd299d8bce723984b5f2e95b0be560fc10132d8ef8d3e85;
 0xb0e06a1e7dc543f9187aba9ddaf2e32d32ca8b8a5da85597e6ee5fda0c9eef6;
 0xa1fb4cb7fd491382e2cf3347ce4ac8a42342a72afd1a1e64eb0ff970f54d5f9;
 0x1977003ba614ea8e81991f6f0d79d62feec3b0f15d20d899b87382fc3fb13aa3;
 0x286e912fa4b01948dd7b1cc0251084aa96017f4fbfcdc6c743feaceb1dea753b;
 0x23370231ef55f59d8f37515ad3cad730625e79325fb839e1d9e9c2d1630e6ecb;
 0x124666f80561ed5916f2f070b1bd248c6d53f44d273d956a0c87b917692a4d18;
 0xb1cf6bfcfeb3cf344f8d1038fdc7b9faf945027ff5bf710d10286df9cbd4ca9;
 0x123d9a409d14c996b914c9a56c54b02c25f4a33a3ecb6066fec4a77c6525acb3;
 0x89f21498630a31293ede8725da4179396e31708754f8f26935a9593ab1c207d;
 0x2f5bfc653853a2d74ee03547dd49092a78177c6bc16eef3d4513709040705202;
 0xa18b08811ddbe006ac8516b188d76ed6e8abb635697bb576f438b5eb234729d;
 0x1e0fb18481c8d9535410561b4ced6025654b74d7caac3e4d487143d74155f7e8;
 0x936106e344c77a4425d0ae924553340214d5264abf959ff5c3de4cc163fac02;
 0x1abeb831643365e91e7266135607235fce484149cdce1551fa4577791ff62fc;
 0x22892af37e8064bf4d88322256bb872e0d733c032d1f7beff2bdb749fc0c7d5;
 0x29b830534e780d7205e38ca2f9ba43ea1f1eaab7d08b6060a9a8e52e1cecdfb6;
 0x124666f80561ed5916f2f070b1bd248c6d53f44d273d956a0c87b917692a4d18;
 0x2ae98ec328e9150679a246222b5122c2c2e35d2044fec7950832b9774900bcb;
 0x155494f37217d033e8d586c6852ec501c6dcced5096404877c788f75f09c95e8;
 0x191c6cdbbacbbdf644b3bc357fabbbb79045e3200f2d10f824dc4761ada0db41;
 0x2d0f68dc5a731e30aeeb23a76c2d985338f7cf7aa1db7452ab7c05f6b96a1c12;
 0x8761ae31b00851939ebf81f3201610f53702765e42367d15a5a64e4fc780e75;
 0x22259606cc46b6876ed844c436ff76ee5dc734754a91bfb977d2ae9f620f738c;
 0x290031eb3efbfdd567219f6f69b6ea098dc1c7ff13db57bf22c699d9061923e;
 0x11a164ee321faecfcd283c24baaac523e609ad4dd6f6387206e8083d8ba2d08;
 0x14a6a424876b86e06f8a891826c3393bf9a9355f0f705d61c39bf65204a488a0;
 0xe1d8d72bd4c192af2d73279f2b7cc893ca0be9b313f90eeb64a5fb69e7a9771;
 0x124666f80561ed5916f2f070b1bd248c6d53f44d273d956a0c87b917692a4d18;
 0x2720b31b0b3687a93e8203819f9fe8f41591cc67bba0bd4c050339c327d0a6c9;
 0x22ea080102094dcc01da97ec17bd1c5ff0e61f1afc3567ba2a4c79127e16e848;
 0x7a0740ef451bc5150556d1083b5108eba7660ba47f5cef92df76ad0cd53fdd0;
 0xc191e9d1d2ac3648df5a9fa6a347c9ed3c01a4176091e91f8191417c885b674;
 0x21a6605ece262ebf5658153119ada85793c68dceeb560782c533e7143c53435c;
 0x7b585c00d1974dadd86b01acc175939143e66f0dff55a7263b7f70507294f4c;
 0x30570c2f5807b56cc39cee5e1164c58506d902a348dd400be3f3ba1ea9b918c5;
 0x2724ae7cb7eaf7d39b6ab671df9d70a260fd1691cff81987460d2c19f200fb9a;
 0x112877dce9f6f179eab02788c44fc9da3d64b99966a71cedbfc4d5ce1606ee80;
 0x3006485215c00900e3c42c74ec9c58c6fca0047827f238431e387772a30febcd;
 0x124666f80561ed5916f2f070b1bd248c6d53f44d273d956a0c87b917692a4d18;
 0x2f2b423c67329cc34adc75ef955e65a6ecf5fecdaddbccc7c69de3a12ae457;
 0x28020df7c36abcaba69762a94eee88063b5f132efc9bf99a8283d4fa34a7a1d9;
 0x1c1e47e09591c1ec91b7840a307819d89c19a567d6e3eb2f8fce818bafbde9a6;
 0x1a84ae16924b521e378f6db619d0a094066209f18492b604c6a8523d9574a4bd;
 0xf1f1f4fe16f636b8fb7d1aa4cecd1846bb37f73880a09eb9680ef2dc49dce4a;
 0x2033b19b71951e7d180851c4c0b54cb8e3d1df44ad55e08de3c10555ff434c0b;
 0x298497dba4b52d50c528b089cf9f51b98c797b5f9f1893df8bd71d6427957ca7;
 0x7979509bc42b0bd1855c2feeb4890c5a2e5cf6f6cbad87558b11b82e43ebab5;
 0xc027d8065b422a5d05af6953119cd1451ecdf3b1c2b49048bac9ffa19a29571;
 0x1cda0318f56da08e42b609732f23a762831ee22bd873a8565a2923adebd88e76;
 0x124666f80561ed5916f2f070b1bd248c6d53f44d273d956a0c87b917692a4d18;
 0x109f467daedad2bbc6b984902be029aa07e7241a63ef242966db9c5b584c39d8;
 0xdf1e1a43181d21009c9873cb22a76337ca84b8196432cee8eec9975c3c1b9cb;
 0x20e2202c033befa6d32f13f6b4426e40121c40ae7cf8ce57c8271e0d7e5f1315;
 0x8fbc9206e82a3f139c8b86fd5da23bf86a2f719c6b7b7db42c10c62a0280bfb;
 0xafcd3b41eef210253ae3d684a1f816f6772b2f253c2ebba5b444b8edc05b775;
 0x2ad7e0ba8acf03ffb2fd84b30f89033119d3f34236df92d1a985d3a71faf5492;
 0x235b9840306c9bbda7e11c12ed8805fb2de3127555334e216bff8defdaf3fa5a;
 0x108abc439242ac2ba789aca0ca17f761aaaaa7f90be1398627dd51a5b5385f50;
 0x64cfee2a05138648491938218fb9c287038cfa0f29397e83e914f355e0f6efb;
 0x169b49780138618a4ac7de6e164f1f8a95dce8dbb68be3737bd1d1d17601b583;
 0x124666f80561ed5916f2f070b1bd248c6d53f44d273d956a0c87b917692a4d18;
 0x37c1010183f05d3baeb2407c7105539b59355e854ee6ba69ad0ca93ffe304aa;
 0x7619f4a716dfa87c4180b37779fc156c1380a593cf4686b92f519e35431a0db;
 0x303a616ca0c021b513b39d551877b764b241e582140cd49c66650ed748742f6;
 0xe0a3c66b892792aba5936d212c510a929571e260f7ebd7e4d8fda17bbd6e4e;
 0x2db87865f56b59e6db18e9fa23e4797466341e3114f73d04a77aa96b0608289;
 0x16b7dd14f376839839b33d74035959e364029cb5ffc4a5197cf2f6654e07f9ce;
 0x1282d2dc0a5418205d397ca3b788ac90b617ab48777a3d0754f288e105bf0aa1;
 0x137494fbdd4f68f089812314c259f9d55b6f2ea9a5e01d31df36953bc67a6cd1;
 0x27939a8ae7cd5b8891f1effa260b4003c5d1f3588ca41b51fa66a15fbef587a8;
 0x209d342ed11c9c6a95f7beba1d6ae606dbb91d53c7b125329540632856980819;
 0x124666f80561ed5916f2f070b1bd248c6d53f44d273d956a0c87b917692a4d18;
 0x2374ed44c2bf10061ff872112598b048396433c0e99ee618a978d7b52eead11d;
 0x5037cf03e8e4060b62671b6b3738c3326b57462d2df714d312dc3cf902e3499;
 0x1bdc6d72769d56d435d2664fc00867d0818ca90f30791fd9b2b1e397f018879e;
 0x125626a10725e4febc2526fea8f28eda9fc9facdc3f853bff34df2d870b6760;
 0x6d4bff3f90a1436f9eb4cff6768bc95d0748105b6bfad3efc469005b74dde6a;
 0xa7e7d0bd3eabab06af826e769285f473ba07336539872edfe4291e7d10f8863;
 0x5b7eee126f854c941925eba6d02d796947eab9ebce35b78f94b68068b8e2577;
 0xc787497b88a8df57e716224abfb8238149ee8cb2b41a30452ac5c8c9ea11bcb;
 0x12e46e1b82dc0fc451122f0d73c36150bbdac4266091f6f16e887c29e6ab3e66;
 0x13fd578c074db81ea352cb09285b53d7e8e9979bfab7cdbe954f2ebdb014c9f8;
 0x124666f80561ed5916f2f070b1bd248c6d53f44d273d956a0c87b917692a4d18;
 0x9d89ecd0e9e76d53bab1d004dddb96233658cfac386ad366c614e0b270f97d4;
 0x1663ce3fd8e8a219e95598524d0a14e95ec2eddbeaceb5c91e3325f03b811cd1;
 0x2d7643a55ef8f191a8385f26b7933068bd8691d8bfacc0298edd54b5da3a81b2;
 0x10ef304c05d0641004092988202bd102a1b76a155469ebf41804b8556370ca28;
 0x2058baa454c35fe9ee8b0a8b6c3579e00d8dea44db1f036f286f8c1c5a489e10;
 0xfe297ae198ed7e6fd6836bcbc60670d9fa40d8196e48cd5e691b04cc7668744;
 0x1dc4589f1ccbbf2e48394a90cd3cb121c3bc56576398e14b37f117f3588e6156;
 0x2531aa8925a4e146a2178446d4213afe2b4bf59537090877084e08abb32b46f1;
 0x2b8d6fb09de987c69fd1423ca5ba68c7e47f24326997ee6ec06b27bb8202fd79;
 0x2cfa7103a4e60296297b5ceb2d5a59acda5b0f1c33c19c941a05b9c310f25ac7;
 0x124666f80561ed5916f2f070b1bd248c6d53f44d273d956a0c87b917692a4d18;
 0x10202be4306b5ec29ef575c5214a35a3ebb8c8e808c572c87ebfa388b13e947b;
 0x1b5aa16b76926df627ac1ec6f6c12602520e67cb23106c456063e8faa4b902a4;
 0x19a92337476b5856c088850149772036f311a5ff94f05442f0a15f23c5c4df81;
 0xbe8fc498e64abe93a3891dd69b068a200b4fff681cd1ac1c8b6c0dec68489b8;
 0x1a0fc42aa273470caf30582564186291b8d122dc036309656303d48a9c3d5547;
 0x18db0efcc7f60ca3fcefa9809141bf46c3659de012760d8a1002f771c77971b8;
 0x1237b3bd8e9218944b33f45ea4c9e7872be40e3d71df354d0b4d22424152274e;
 0x65c096251bd3ae0ba92367a9db4753b90bac169e7bbe2da1a23ae3402e45d27;
 0x1dc83ef066fb306e222db36b1b368020ed31d2b1589cb6ec2e84e406213c8e04;
 0x2c1a8e6e5fbc28d95ac7e784228ac12d2d28be32c4fbbafbf21c6ab0776f449a;
 0x124666f80561ed5916f2f070b1bd248c6d53f44d273d956a0c87b917692a4d18;
 0x17ca0461bce08a8a8853a8f49f7e9f52ab8f3d8a7cb8a925d4dfd834a92005c;
 0x1c90c977e1daec74c1d7e6d3ed14c7d41a17fec6d1440fcb3cfde4945ba43b7f;
 0x9f6aee2e43570fe682544dcaf6efe50f273784349ee907a7da08cf0a3892a09;
 0x1a9e810a073d7982a50a4a3ae97e16ef3cb1e231fe0aad228ddeff415e873d34;
 0x25fadb922987714ac135457abd253469ff387847e625a4f376a21f60c54aacf0;
 0x11b65d5a4e0393733848b5a18f5ba22c9df6667e9b87075de2dcca2a6322e980;
 0x22e9e700cc820ac9dc080e94407b9c18adc135535702c34b64005803881d3556;
 0x160c88605fad7ad65a5b926dc177fa9799c951ae17b067ed62b06679a4cf03f3;
 0x1dc2851df6d0947e5b3c9385544d31278346d45806328142b6d3b25702bd7510;
 0x8a42ac9c651c761dac4cd3334d8ff8541ecbba391cba04f21505589f39b4d00;
 0x124666f80561ed5916f2f070b1bd248c6d53f44d273d956a0c87b917692a4d18;
 0x289fa0e8ce8df0c60be933c0ab3902f988a6a59adc39dd4d87456c88982edc70;
 0x1e70c2b91d3d44777fde9b8672508185789aa7af7d0ed1b3e08273c02eb63201;
 0x26202efdbdd93fbc22b59bb52b001dea2076ff49c1bd9aa0ac0e732406f85362;
 0x665130b10a00cc5088515f8e16903ba3156fa42285bf0b9d1cb845209425be3;
 0x20a044a5e1a405e1ad5d751492516684148b3755b1fac705fd6b6eb666fde2a;
 0x2640e021b9313db742e534158b3737b355779eb05ffbe6257bf3a96ccd0ebefe;
 0x1937f02a9ea7e1700da7773129f32911d991f2b872def0f10a176054e332ff51;
 0xb198e0da024b3dab3d6e79f1e1a0304c6055a8ea3f4f93b0ce24c6ede206873;
 0x2c0a30d51449d8db5f3dfd12c4dae7857a91ee88e297208dc151ccd8be4f0870;
 0x187c5f8a529149c6250007730a57ba31c7dc0461d40fcc17326702020a21d33e;
 0x124666f80561ed5916f2f070b1bd248c6d53f44d273d956a0c87b917692a4d18;
 0x2085c1bdf91d64b88fa27cfc4c08e07efa31aedd384d465f558c3d60ffb0565b;
 0x25af25414fef41bc7e5f3320cb78b1ad4532319473caa7cbad0cebd1a77a91c6;
 0x1a1b25a6cafd3bd28f97f314456566c05ff153beed81b1db117f20ff97f132cc;
 0x2d9ab0595a2025fc0cc0850b027cbf4d778dfdb36b3f49fae8029efb2ea63f1f;
 0x2f30cc9b0e5b85bf04d9c921c26195c7431a50a6fedc28250bad8d5cfdae1d39;
 0xa37b2a74bd14072efd62cb285eff2901ae78fd90dc17e6fec4676cb04f244ac;
 0x1c424788fca025dfac66c90118b11c8272d4d68e315879b3bad72b595016b1a6;
 0x20f5240469332dac40167ee37438a75bd816dcc1fb4cce2ac7fbb77adaba5be2;
 0x38722e06b9b7d6ba8232eca553b288225456b08a94f8c0722196654430b5221;
 0x56eec5b756d6945d7f1ec8e5147ca2765ea9bf915399d7110f15bca953cb8c4;
 0x124666f80561ed5916f2f070b1bd248c6d53f44d273d956a0c87b917692a4d18;
 0x27f0800ddcac9fa1f1cfab29f40c24fc7d4ca5b1590f2610520e88b510a1ccb4;
 0x1a6a8f6f7e612f637ab123355dda1d4bead9dff6643c35d5407652a392e70382;
 0x1b2a744cbf0e7326885b084f907e7756f3212136d607d074486fe4ac707a413e;
 0x4abaf721c7350f1696a88a898880c58962814c3821b12fef0927677ffead3a;
 0x2f194b7fb646175f3ec81abfd10bc33c5deb6b4f69955d8e37f90d5619bb1f96;
 0x1457d0d9729fd924f98a0ab82c379d9e1fa349c99ec5d40866961486f9c9441f;
 0x24022debb2e2b1ebc444755063ded047216aef7a53efcd357c33bcf18abf7d78;
 0x2f1a9fa9fa2d06c6afdfb03865806fac1f08d5b64a4a4102dd69b8ffaa16d9f9;
 0x2a39c8affd2c36951f2d65ce28583cdd27e8d09b3c4682d9a91a8e6da20f018d;
 0x6cd4a8162b4407a90a632bcc6e13d25a93501cd27df389a7f8240da9d0fb308;
 0x124666f80561ed5916f2f070b1bd248c6d53f44d273d956a0c87b917692a4d18;
 0x240bdd87896f169f78702f2fddf10472d1e56b0c8dca668c3be9c5b9fc922f8;
 0x3cebc8d717886a58a2c2a2bc572e3f58922c19e6a8026dee09a8aaac59d9170;
 0xf2ac5c2f8ac681e231a623034707fabc5e81b7c766c12db359575e5402982dd;
 0x2dc50cb75530f53c584f0db1885d6c1fc03009cc8e8f8abc50b5ea096d8cc1f3;
 0x94c8952fde36c4126f4df8518ec3f831fdd80129f8fa8ff1b87d7739efde02d;
 0x180e29433d8dc3cbc26a9b063087678e5b7569bd759c2173ad0622557d942c0e;
 0x137513995f9a52a60cc08ec51aa5efd1f10828587cea9b2a5d016788021bd0e6;
 0x102c8b90ff6c327d16952ad18bc65d9d6efa7dc421443ff4159e72b02ae2cf2f;
 0x29f1e94ed28f72023e6584dbc4a4c090c6c5ee310d8b83f0f191ca9a382e83e3;
 0x1c5292bf3034389addc954d33494f4231ee9adaee58686e630548ff0eca63191;
 0x124666f80561ed5916f2f070b1bd248c6d53f44d273d956a0c87b917692a4d18;
 0x1430d7953574889945b2851241e066ee9d6b5cd11c106e1fd2093d691a164ea;
 0x1b3448e3a38b05b85a691e2df172b46c7501f3ca292b5f484dab6286f4a23edb;
 0xdb96c5859d2163a39d6b3ba31694b603706633accf6529526ed570fe019f001;
 0x21b598a7b1f1990081af12292ae6d85107d314c05534cc1ed39f7fca3280fd0;
 0x2110995ecd4f7cae17dbb93117661040a5059bd20650a990dd6781e6e773790e;
 0x21893b6a2b4a66316b37eb749dff8ca4ee17c8bff8632ee3765f7f8fe572b0c4;
 0x2ccaf308f912ffd14b46f30d8f8e2d4680b6f3ca217587a4a6c1c1bb840f3683;
 0x10be28be53fa8a09cda9f67606978013149dd78dbafc39b3e4ec0ff2ec75b2d0;
 0x17e826d4b7b4a2040fcba809278bede0cd4a79c0b0da81342163270a1422931a;
 0x9ece717307f52d17f18b7bd204324209c011daf9ef789973e69f9f9e09940ef;
 0x124666f80561ed5916f2f070b1bd248c6d53f44d273d956a0c87b917692a4d18;
 0x21c512b8be5a975e58cc3dc195f284a90a921a264c67f8723a5c9fc79c4ee590;
 0x1a9c325e96a34745f686eec8b268877ba7aa0d44b11f59b4eb11b24ba30ab1f6;
 0x256c5ed746133373328079945658a21927e576985c8c26c42fb0e27a37aeed5c;
 0x96dd009241c6a5a268d535f5ea13cb1f313735cd9ffbd97f580477251073fa7;
 0x1b5697a3492346753e3b41b5f690f4ed6cae7bc246e9050e461154da63b72346;
 0x212e6acfb305068286ecd6d2bba2ccba4bf952487d7db86840d1bc35d1890834;
 0x188957819ec0569d19dc54c6a31fac77b75a89c8190ea57720a7fc3f7e6a4917;
 0x551b30aa085a016401370424d8ec7b729442d95c263ab077ef1f717d805ed6e;
 0x22883b03ba4694c2602c5e0c148a2d8b142da732f2dae3402732527f1a57fcd1;
 0x53a4c4b2055a58c5ccb0f23464de37cc9c3af86cd2347d821612c4b017e8e25;
 0x124666f80561ed5916f2f070b1bd248c6d53f44d273d956a0c87b917692a4d18;
 0x12ccea9183993e5d7dfc16fdef26d9f845eed10de2fbafe63008e29d3ca8b507;
 0x582c12381fe92ce0cb41392d98cf0bfc811a96519d717af5ffd45c6ca1679b;
 0x47527fea0d1a194240f9d9f4c5198bdd620ee5041d2dca5db40375fa6ec11bb;
 0x9803bd526d49e31dc0fa4188e3069b7ad81f2d6391934de41df4aefced4b086;
 0x21d3b002266d0893a5e7c1a7bc7ad2f2aedc63bca12b0107670b271010c2c177;
 0x18f7b09e05bf3b680428a2d2baa51298016ef23bb71ac95152bf75c82ab4cd2;
 0x18bea4252cbd7815e4bc3bd34b039be2027c226b930eab9cb0714c2ee80139a;
 0x100f77a4054eb625b22130838ccde66d21c66b6a4bf8c8b10edcd1d48665b7;
 0x9c8b96501ea765284653b0d464445b012086366ef33d57e3a9e388e740233f6;
 0x6c9ac27ccf47da2979230b1b6f6704a08a30029752acbf49942c1962ea2f9da;
 0x124666f80561ed5916f2f070b1bd248c6d53f44d273d956a0c87b917692a4d18;
 0x68dfe569c59fe117f04ca4d04df9a59ce5c9327ab88894f60a8433cb3bbc7e7;
 0x29e21c7d1b3fdd04d0f89e3bec6e66c41347183faa487a085bcf1ad2a446319;
 0x61ac0b5b33b8d667219f7663fd68c937c548d342bc27e5f398b8f12c4fd54f9;
 0x2e8eaea01526ea362b730fa76697dcab6f0298fd91f0ee145ced504a164bfbc4;
 0x1bba6639ec598530de2706ca4264f5b42e6ed5374993f5517d407f3a287b2902;
 0x1da74a23eb1fd7db1b30cd5942ac540c379bc74a3d1e51d5b0bddd2087ed100c;
 0x2a0e3100447c818717bcadcdd0b7d120224d203c8d9ef48064d7b97f6aabe593;
 0x27753925a34a26b8a301c8531ba88815a976e1836858e054f90d6561c4373330;
 0x2370d8627c27ecd31b2b6a93c33ad409a2e785c8798bc444f361d667c59417e9;
 0x24447e984cae81901b8c1668e8a11d94557b39ddf2aec74ef457701e00d51e6b;
 0x124666f80561ed5916f2f070b1bd248c6d53f44d273d956a0c87b917692a4d18;
 0xac0847e3de8e5f007ad7427f2555515e4079bdaf0b0e34b4be5e541f482f33;
 0xb2c4754b01925272d1ba4359fa02c399bdaba806b32f51c2285e2c16bf3316e;
 0xd33fb4ca1a013eb65ff09dc85098969747083ddbaf4e0093d86f29ef3948fd7;
 0xf06aa40d012cd276378c356edd414c02a77abec6bbbe8520d90b8ab96be7304;
 0x11620ba3b59e9e02401b1023d0e3675c1a26d896908931f88ac8f487cd408d26;
 0x2d1783e31f3c242476318403db851fb1a6b826651ae10aa2c8c6cee8b71e9bba;
 0x2c989d933295a819e388cbb736f1dfc008a813b11500d7a5d75c3de45443c7df;
 0x185d645f3186249ad6b20d2efeb6ae61ea7add22139c06f0fb143d4b36428a6a;
 0x295390e4301ff52cb4cc265685900719cf785fe42fb3fc7606eea8402d2c3be2;
 0x2cff591766f8ed033dd1004a216c9545cb1be5c235f59ac0189845a3f0fb623f;
 0x124666f80561ed5916f2f070b1bd248c6d53f44d273d956a0c87b917692a4d18;
 0x1d2f561702487b43d9f7f6583fb8a342c82f15053b53c2952a7dd2d32491d880;
 0x1431b6537ec76dc2c30ee7476301e832700ce7f638553e84cd6fce7d6f14d7e8;
 0x9f68e9512cf4368a0b526aae1af2bfb818655c50e8a87dc157f83d79b409a00;
 0x2e07015e39f5f8af17cd2d0d04a76917c1b6c30f0b3bb3c35a24d099249b17d;
 0x22d3936579de1b153c68258f36a157477c7c746fbdc4f9f3d8d0ab07d651c28e;
 0x1c1511375128ea34b876fdf17a984c28f9f5f551b8f5008a559875d627caee62;
 0x142882177b08db528d3e30ac62d3325ceceb585c4cc091e5070a79abc3105fea;
 0x1a168d198284cb1386879a2642bffaba7bb7672c91bcd6c562be03e3ab636179;
 0x17221d50c79b06811d1d66e63757c063ce62dece8b1359c38932b53e0c199401;
 0xd1d4e722fc75c3f4931701cd9ac240a172a8e3b638bafba1c99fe987492809a;
 0x124666f80561ed5916f2f070b1bd248c6d53f44d273d956a0c87b917692a4d18;
 0x27db073487a124e2eef709dcfbb41a62f07ee32aa952f69af50ac486b6caa7d;
 0x268c8bbdaaee13720df617507518283e1758788bd916fa548026485c7aa9a0b2;
 0x1fde18979072c0225095c73dce75c99e7c0ea3164cedac4ee985f4dd029b9e95;
 0x2531f077c0a77c6ce0ca7024c5b150a41489e06180688904997855777baa84f1;
 0x294a5bd8cf93bc687c0568c4e29e516d90acddfa5ca2c7df81eb09286583fcb6;
 0x294e322170c9ff2069704807e64caed0a0e9f31683641a3012e867f5e913559c;
 0x2b3addd6cb0f23db00d6cd79dc8856992da36e648e3bf0ee0b2715d785d5b4b4;
 0x3135e79314a76a13df9cbfa22a7eeaaa6a5d2441ec32edbad2396c270eb6003;
 0x173a562d9eddfaf8ffa687c362e2bdc39da36db4a8557a6dc851055a2c48a2bc;
 0x612d864c1ff73f7b2d780725cffad529426a6e1aa5936875bd9aa472e7829bc;
 0x124666f80561ed5916f2f070b1bd248c6d53f44d273d956a0c87b917692a4d18;
 0x2ba89301ebfc123b4220c6c74488005cb752c72f7487bc8ef630bebbd41bf6d9;
 0x10fd2909f9f7f2774720ce193a4c009bc92bab7f27f959a57842b3cb2f10e622;
 0x249c1b33cde3144fb9b9bdf30e45544cb98bb9304efacf2adbf1271d59bc00eb;
 0x75727d6b84d8e427bb742cea7e88009c286e83bd66e1d6951dd7929dcbe3621;
 0x1bddd7e537992438f10091b25a5225fb06132dec4ded9cbfeeb451a034acc670;
 0x7ef5e8e55faf5d9129f012479e12e08834b5e1a38ed28aea583e7ca6ebba680;
 0x14b714178fc8031d847db2e05553dded47111455674598347dce1ce8b8ce4e5f;
 0x119e1cb2a7e4cc688569e9b87952d4b229be2265a58ed6e619aaa93f30c38f0c;
 0x21575c98afb0fd8dc75ce88a04201c36aec620f733d6ce71bddd6c4dae189c0b;
 0x2e69188594acabdea88e257c19b0aabfc728d191a931d7a5f4e7ed8370c24fc4;
 0x124666f80561ed5916f2f070b1bd248c6d53f44d273d956a0c87b917692a4d18;
 0xd30b0f7b463491b93ef9a20562faf35b4eee1b0dcaaf84964b850c3fa9f52;
 0x104f6ec28eac4f771576a7ec410980b2fdc63c39d1b90c3f0e721847209e2025;
 0x201753ba0a0a888b66ec516584f333b4cd1f57c164b75da22519a89811dcf077;
 0x16fc76f1f5f7644de6bc79cc484e010dd1da3d0631ef42714cf5dd21f59ebff2;
 0x10892fc5eec5ed00fc6d5d0975221d3d870685367f211ca576706cfb083b49f7;
 0x1c59c9b6844de29584ac93a73022b6761b196e0041e3fa32f548373a84307ad8;
 0x188a3064c72ee6e3b555ce35313f73c91a154bdb59e57fdbc95d286df429fb64;
 0x25a747a9139698f6b090741ac55c98ba3e55c845dc8af25ad83d6e48c945e249;
 0x19cf0ef78c77006fa9f4849ccfcc2c52dd326a646a5789cd25f79ed84f5ccc09;
 0x1145187227de632d3deb1d625a4e5fe3886f5103ae46615a8f07e6035f65397b;
 0x124666f80561ed5916f2f070b1bd248c6d53f44d273d956a0c87b917692a4d18;
 0x12606f5141cbc1b9a349a9121e54295d17ff69f2f9027bacdb0ebc8a6dd2d0a7;
 0x2d1ec807263d78373ca6b3aa8f4c51ae94487ae04cb9f5fa6cb7a6155d44cfe0;
 0x2b83ffd72f83ccd4c18dd16bd1d406aee308fd475bf706f00cc287d9dcd97283;
 0x2378c35a0428264b3afafa0b782312463b724a4d281a0b56ba6036abb9d84c46;
 0xddba7feea2855679ecfe13432b420858ab5d93bc835c9a0ad59b8c011fc058a;
 0x60a0091b5a50a516e31bb6ae3023d902a23e57efdb4c571c143ad6321304673;
 0xd08421d815f9281094977237c6aa7e6243ab5cd76e38d9df19dd2b4a62211d0;
 0x165a3eeb547af156b4be28850c24586c0733767364429a0a1b7dcd2e7f99822f;
 0x2367643242f32a40574489345294604135469a362e8f6f8717c381dbef5d40e2;
 0x303a0941f18aa3166611976111e43a94d92f51f6fbdaa07557b47b4680a21af4;
 0x124666f80561ed5916f2f070b1bd248c6d53f44d273d956a0c87b917692a4d18;
 0x1aecf5def09ba5be2ccd968996c5564145f38f60aab4191978db8089fdb31cdd;
 0x304ebc6fb5252ad8b42ca58356799e8c6961ac84708f8b465227103259913243;
 0x26ab128903aa48b65d12869a85697da4dd7dbbab09aed508b833a398855eaa29;
 0x245567a4087a5582bb36dd3803f7008596ac2514a1d7380d66ede29e27823942;
 0x46585da7e8d6c6cf0ff92b5e3394bc0499808442cde328d13646b44a69cadaa;
 0x12be98bc0a25716e254570afde08db45e96e159a86d7d1c685e1eb2a45a4b3ee;
 0x1853379c16580675d773c80841b8b6e7db0e8a2b97637204619472145e3ca760;
 0x138cc77819364fd983a34eb109c53295de653f1d905fd2de7b6f80814fe8cc0b;
 0x2db2fee2d496891332218a6eb709848a819f62b8725482c591bceeabc1e3fd43;
 0x22e95c3ae4db1cfe5e4cfb697815697cd9c34211c65111b8fe850ed25958057d;
 0x124666f80561ed5916f2f070b1bd248c6d53f44d273d956a0c87b917692a4d18;
 0x14f0f0699aa9bd8326bbec5ddd0bccbe3a7caeab685d9ce7883e517164bd5994;
 0x1815774675d576817db84840bb9fa16b713472d72f4bc24c2cebc09aef0c203;
 0x2a82117a43030418e52b708eb696ab01c9ab04396eb53a3ea4194b9a19824238;
 0x1f02d515206f3d9a3c2086b2d7c6b19004cc8553a77908d534ad0af83a637097;
 0x3dd5240ce1c5530fda4993dae13bc07bee4c7994c1f65f263a2b8a2f7bc9db;
 0xc414ca1ed2f718060876a21de201d87b76f6fa224faf2775ec99cc13c534117;
 0xab48043b18014d78845ac07a6b9727cfe0b283b44404e20c5da462aaa24f7cd;
 0x3fac53034fc748ce7cf966aa1f6bf15445cb4f6f3a4a929cb27ede7928667cf;
 0x1f91737266e97b633fc63e5b0e1ca82b486680cf677b132ab7a6b4ac75f70482;
 0x2556e1170d24d8da980464376850938b361e16999f2f628e1281f5d6ab0b13f8;
 0x124666f80561ed5916f2f070b1bd248c6d53f44d273d956a0c87b917692a4d18;
 0xd258cad10974250f6da3a9e068f6830d7c65f1253ae250324bfb72b50ee94e8;
 0x15e2bde6eee969fbbb22dde530a8e6117fd640972712b644ebe5b4bf0841fc90;
 0x231dd2a58fc24a20243b93b6ed5cf8b88b7a94a4137961852fb85a207b6e849a;
 0x4fcf48ba86493a6ed7afdbbd1b74fa91b715a0cab2e1cb27d416d1cfd220258;
 0x27313c2f8d4e5dd6764d672e1a6f951d50083e4e404b9c1cd22334e7eed12f4;
 0x1e8cc36fca79a1a3319d34db2305478ce58717e36f9710873528b16d4f0c1a22;
 0x266e3f3550eeee1d1e2931ff3be33ed142df41311f650e0704d1a333b0bfff52;
 0x88acc576b7bb1fd00b8e1783f7a48b72b48a529e130fb6f2f6550f41c67ae65;
 0x145537172cb306df020f911d46eeec82af8134b982f00dcad839c3c10073b1f1;
 0x897eada2a51e4cc2e55be2bab91c68a0d1378aaa4a65bd985e22cc675fae8d5;
 0x124666f80561ed5916f2f070b1bd248c6d53f44d273d956a0c87b917692a4d18;
 0x1fede8462b07d0a305d02035683cf29be572a53ecfebc28c77d17ff531a0e873;
 0x64cddb26305c79f75302ceef162391813ffb575b21526a2a99d4d05fdd904bc;
 0x41688ddfe25e6f627d365fc18d74efe41659d9213f25808c81da4168f465efb;
 0x263065cabd50395ef40943af93df5370ad2f6d17bb6de59b3e8e7115ec56b82;
 0x1becfb943b8985991a66c0758322e4c3f22632c199c1737f83a7dc251164a730;
 0xe01451b1ef92c997edac826766a61525bc9a345dcd66955f9ff9911b653e737;
 0xb9f01062d426904168cf7092d57e2c86f6660111475f9978f6b0608ad2f2278;
 0x2f9dc8eb38534652d3eea5e1b8de7f088c3ea8f9015ae1347004c3122256efda;
 0x2d97e9440f1fca57f227bf0769729d3dba7fe6cff7fbddcebe492e1b1fa1557c;
 0x1b0553d2ee91c3a63730d686ff1a53a0478682a7363ddd4e7ece42ba0fe0cb2e;
 0x124666f80561ed5916f2f070b1bd248c6d53f44d273d956a0c87b917692a4d18;
 0xe83184ff6e43582fabb4d62c346c957a365358123861b4061670720703577a7;
 0xce4cb25f594fd996c28d4578a4a8e3b0581299a6f165882fbd1ddb2d85b2ddc;
 0x585f5827997ef8691078d8ab635cf133358212340599c51e1bfa20c93226056;
 0x29bba7e4c28316d70bafc5d05ba5a97bd5451a127ed75d9ef2136a02fb0e75f8;
 0x5e8ce714d85ecab7027dc4ad12c3a5e75a211e771db239df7b3f661658d4d08;
 0x1d243f2bab7712f5d12fcc7e4239b39bc533ba6d7e1fe98779a5ced87dcf0f64;
 0x19207f2711d65bd5cc7d1f5afc770d74efbadf057865e27efe6e61db2a83f1ed;
 0x54538bfb0b84e707e000ec579bfb8d796106da1a5e4abfa8a273141d6f6ed;
 0xcbab8595eee6b93df0d9f2545d61416af5ae2dc55a4f332653af8ce11fb42d0;
 0x1dc6ca4abd54f254c1f401b871501e022c4200688e661613926a63ce19f78945;
 0x124666f80561ed5916f2f070b1bd248c6d53f44d273d956a0c87b917692a4d18;
 0x164b183c9251e3f103a08c44ff9bdfdee4a7f8b860850fc3b0ddac111be2c24b;
 0x80435e71f368774466eb276b7cfa5f9a7a4b90aa4c34e1984fc4998816a9fd3;
 0x24a82532902cf98917319ef392e49cbd1c7906ebc78d24a4677e1014ceb98c83;
 0x9f961322ffb0b5ce846054c4c6dc75852776dc8dfa0c2f8b66229b3fb62fce7;
 0xb9af076f893d939a48902f2107976e8a8875aa5369806e57e8c1f6fc1f5527;
 0x6c40239edae3e7600dfd00e6cfe939db8a69799a826ab5e91f035e971232cd9;
 0x24701c675052c925f2baf10f661d4f719bf145893362632605adcfbdf5acaab2;
 0x11000d892cb37fbeb8e415c01e1cfc25cb3a25d287aeb67b247d0efce56c3c29;
 0x2caaccd757a3146300021050345effd1a9e5b64182e1cbb67653997b0e391086;
 0x10d9b51b3a086b412b1cdca5ce171ada65395036badcc79ef33f84aafe908bfe;
 0x124666f80561ed5916f2f070b1bd248c6d53f44d273d956a0c87b917692a4d18;
 0x147c39dddaed8630bf1b92249600016fdddc5e9f5f08291ca1663358a41d3dde;
 0x2d25d39661406faf935d340fb1535be9086598121d96d85f84cb586880517fc1;
 0x1a2643c9cc6f7e74f27ecdc2e30158b4a6510773a5aedf52fe9fef5a2261c263;
 0x2d5d7010ca67e74c9a4d54c50188de26c802a2e02080d6d352fd3d5b5682c83a;
 0x3060121bf7682a4f51292933031818468d050b84c2809ae816f14340a635bc10;
 0xa514a5c227f4cec95dfa029e8dd124c34895aa46bb27c0911f3780d5015540a;
 0x278bb49a7b4e44aea46eb0f882cb692801a6e60fdd5b5c23c63cd65ccce4fe0a;
 0xc399e9f67aa40707a203feefb0b958bbdadcec5ca34901d253d026a2419f6a2;
 0x1d6b3d5f6ea369c26f825d2362933eaa31ea35ec0a77c1fbd9e01ca1523e4432;
 0x24be510095436206dd0abd0b0cbb95c883ab304aa52598b1a69306ec981a688d].
(* poseidon_bn128_constants.rs:1341-1837 *)
Definition bn_c7 : list Z := [0x2197703fceb4cbf07c6dbf46c4ad93e7d14e554db66d09102ff84824743fe4e7;
 0x1322f0fffc7e4854bd8b5fc23e7106b51f59bd5061d8b565aca2fd3efe512f79;
 0x19e414f80380aa2d222133118c337d82a8c5894c2f88861ee46f448fa9d61359;
 0x22241199a4df9cb7d65249d9562cad6c65f16460e79a7939cbfdd6d7b9209d9a;
 0x301061735384dfcecf9a311c22ade327b51c78b211615f41c77f6d85e8a41b6;
 0x229e1d86c1f2810f4a2633b7b4b5bb61b7dc5d19ac95fd8d379548ff2b6850ee;
 0xe31dcf9c53209a817eeb292e989727c3f56bff65883afe5fdc28ac3dfbea675;
 0x222c7318ebe96306c9d79ac11237263c6b8eb25272eb88407e8c29a358b40f2a;
 0xcb416b42c53a829cf4fc823be8f4fedd12593394cd529053ff4e3604974a2c6;
 0x892729d09594a8d8b1adfbf2e2ed75399dee612842b6db3d2d2c2aaddb6c0aa;
 0x18e39e9ae45f14ba97a15bd672711ae124375d9f482a4487a0e334dee2d27c71;
 0x2560c9ff672e6ea69dbb33844d0d22870461d18eaf0f8992d4d7ac649edd6610;
 0x21bee2b8ed54b726ef17f77366b1dcfbda7ccf1e487f9916e5f963e814c57312;
 0x300e1b28dabebdc0d4bdbc19be29a3dee4eda8425dd0c7c6e82fec147cb070ba;
 0x2c44a5ff45deea69dd2961d67011af4982b9405f9fe38de4a732d2aeae88cc23;
 0xc8d59fe1b7f55095e6aaad9e3b4e7b1c93d876ba3234dd1ac5ec64108291bfd;
 0x6cf82bc5fd115d348a30b0c45378d90cca1660446ba049759fa53103fcd78b5;
 0x2f80ed01a2118d02e2145111c3fe6ca70efdf95d8abeaee8829293347dc9061c;
 0xbdfe7f6803e4dee7b026e079075908cb8414e3d651dd12fda67df08dded9e42;
 0x6cc48ed882405595b34d39138f50bb5b31a963a0dba66aef17c19ad622e29b1;
 0x2a67f3ba6d15949932ac5622cf9e2b493801bf16a50336a4518258bcc6867c95;
 0x2572725a67c60718df656934aa78fbeb80c8f395aeb6a20cd833c4b14fef412a;
 0x3bb7f6ca43545b11f19721265b416166579cb753330b1879b79685d1df0bfa7;
 0x2412815e863f8f3bc28bfcbb957faa5f393300b25133e9221b8eb3156ed5c12b;
 0xdbf64d58df212e4307871966de097a5db09a93e5bc305cebdcd0630f433af45;
 0x274c06c01158e047ff4a791e25b7bb3db190529df8f50b6386273f810f15c6ab;
 0x23cf40693f52abf0ed3d842f7bc85d1a2111d0abecfc18acd0fe3991ee5fd33d;
 0x1daaa926528f3368f4e4cf924166b8bd3ff8daefbcf900e6dcc4ee63c4099698;
 0x10103789dc9471ad718657bebb6781e39bd92fd20ee1a32d0de3ea2817a01555;
 0x9bc25065080e6c6e9932e34bfde78d1085f19e9ffc8965a4660a4d9b6d607;
 0x1312c727cb5489bb174e1dcb82588edfab31a2999b377dabece466e9dcd6afee;
 0x20294a462c7d0c25aeb5374618e5e77316682ae3d726824f15f00f7cb9a7009f;
 0x25e0c6be89bbb04bd8391c90cf35588f0e9d73fdb06259f47a05513ad7a23e91;
 0x84a0b87e0b336c9a911069f89d875a38be313efc420d28b9ec287f28810fd3;
 0x28a03ee29f612aab268f76241d54d477a1d97f5807ba2e1812f4d350d7c6f7da;
 0xb6794182b723a12e0b35f76bd55a7d106ee6a4035527c4d329a6f33068d7eda;
 0x15b9a698465428fc686b79db4959c8495b92b85122f6a6932940836facea86d;
 0x1bfe52289f811f5c3619f14866138ae9a1279bb76e8cec9a8936fdc36f59df7b;
 0x1cd574fe8d5e4c428b92b23a9717342176e1d309a7e259052c31bdc9af091fa3;
 0x212d1bbdfaaf0200735bc5851a156adcbfa4f607f5da122e1f63afaecd38cab7;
 0xb0479e28820e883d903a951f95b13093788e9e1ca64ddf2abb94b13fee9edbc;
 0x110f5257c21c9379d73b76e9ca95c513c77a15cc8ee0ef726d8460d4fbbdaaa;
 0x8c52e9401a9764f0c2487dfed34e215c186b6c2838e38eb5a50cca4f0bc6994;
 0x2e422b4323cb4c0af46f4b0e5052f75744c538abccc7643f339440dc3aaeeca3;
 0x2e12482ba160472d45549ff79cd04aebc4a327c4bb9d78c2573b835b05c55fe6;
 0x124fa5f9c5a96d6cce92cfc73ea2446202f09100eed203ae4267aa637a032d36;
 0xbf651f82f83ca1fa037a941d4e2a4b3e08f5e1603f933a1723adf4135796de7;
 0x21c674ea7b834741cbad39b21b242ab9a5554c6c9f92e801cb1fe4382b619463;
 0x214f91d6c4aef57e83186b57fd9fa48a193e1caf16d7f6dc1559d144a271b341;
 0x203e2218389729c26c6f66213f2269c262785ec68c759599c2d8e3f68035055b;
 0x1aa934198713ce17658f51293fad44b1c22fc80391405ce76c92b2349b7eb3a2;
 0x1014d4e5ddd9c17b3c2b29684476afdbaf7fc56e8b799616a67bbc6678e45351;
 0x33c13ed45b4762a47e1d2d45d7fc8fbf9d4e24546e20dc596911fb991710358;
 0x9bc1c3274c569e7e5c5d77c51fe69b23b7e435138f4f3217016a2d70ce71d5e;
 0x1803171c9dbc0610e38d8308db101d6a99ca90137f6ab8cdab2a91b36b63322a;
 0xba6071aa98afec3fbdeb46a88e4a5d17bd4454c0e7da8c74b15b084488cfdcf;
 0x179e90ab4b08a4ead281a8709057487e077b710879911f215fbd6e8ebf838e97;
 0x1cbca88b8ab3f0588ff87deea978d00008adbad808e6510897238ea007f491a4;
 0x2f50b20b33692bb0f62777de5e3198377d7923ef2fa8ede08831e10f7e9b9f5a;
 0x15ba030e8f1ef6f260566fd6fcfffcd21a1cfc1232f7ec7148ff076d1ba68707;
 0xdbe053da01aa4b7c0fad83a3cc966f0b8281bb4940f97a5516cfb9dcd543a6f;
 0x222eca5d754afeca8997f31d6fcb94a5d799afb795e68d4d8b0ce6d839f6dd7e;
 0x2abffa43d756ef242db7f584bd62405991112618362f1b29a33ee2131b46a446;
 0x3c92524ebe67300d0dd0aac464f0e6ecf962d6ad41bf2685f077bfd788eb3fd;
 0x282241758ade4ef8ff3858305288d3b4a52209295d1a4bc89d885b2f5dc3341a;
 0x2635cb973d71bb3d2137bd81680dd3bc607fc5487e898c4c2d83c1dc2817687;
 0x13c866aa66e8d506079dc24c2df7b1e691994887d35622f4cfcf014bbea223e9;
 0x151f0007ccf42a7ef969f1b6f6315992e6594bb5344d2839fee6620b60e2c023;
 0x1c1c6a5ebccee8caa4dc7ef18e194274f6e198d2b140ddcc97cb15c92ba1409c;
 0x18330c9e67d62f7861a996d7ed69bba904b0dd459f2b254fc7cc53dd28e45a65;
 0x26b747740c95bf139cb11bdf02fa63a4bdb29a90f158933a1822cdde5387290d;
 0x1475676fb205084246ef9bc7234f312c214f426852dcb2ec7dc3772f579af8b1;
 0x1b03ad9080d29b70aaf30bbc3200efffe73ee269dc032d2e32bd190767bc380d;
 0x21c175f937c2f82e99735bc7c201284f89577b27a1f84fa24642eceb552f4455;
 0x1192e0269a6b66a8c5887527aa4474c2de91cf8c71ebda835df2cdccdd4a4e4b;
 0xf3a12c0ee52f0d34f2b4a0dcd13541b48aeb3d5121d311113bba9792a45a58d;
 0x7fb521883bdf78b33689205b45e52269458a061bcb87eeb3b1e183c6d7eb5b7;
 0x248d0e8051c1a965640c96c6f010c4931fe648b96f95ef6f5b8e474f64cf3169;
 0x2ab553db9ead2c82ce91febe180529eff3521875f7e90a9b8b7a3c4de4877cd6;
 0x211ee3bda3c95f1954eef22a0a82c2ede8444e42a72a8200bab6a133846d5b5c;
 0x111db3b5184ff7412f79c129904a9cac4ee65a51c2062d66732f54bcdf767be4;
 0x1a73843264cf9a3a1bb6fb68ef76037c4fa98337e5c10096c630b449ec4a5f67;
 0x1c2e5a2d9332f65128c85358662d6a7c44353add09c27cd07da02f9144da855e;
 0xe2b35fe1021b879de5b67a7458fa6188bbdea39e2bf468a1a24e3625cafff98;
 0x2e568594e5dfbfadf272b8d6e8c99bd785c4fa94ce9e87fa8a9a37e32c7a28de;
 0x7043c7571cb7dc5205bfda42d693527a4bcb58238ed6a6a248e7917ddaf0c3a;
 0x239e18a0c85b845ffd6b85e96343f1a8378f3c691dadfb228da6ff7aa79efe1f;
 0x25e247af250c564c00f5ff1cf1f2bc8606600f173cb65ef0780af9f5a1b676c8;
 0x31ba3385664544e3e0801f1698b15033a6049b2504e9cdc2c6e3eb2fd12100d;
 0x2a33777739e2ab0adfb1ca5687db1e059b20370cbeeccad32da5c3609431ff65;
 0x2bfd6f0e9e996ba13749327b9c5cec69903d413b2df29b777d05384b3e7af952;
 0x2d453d93fb36fbf8e36747ee92d90cad9e02e692d0748c07fd43eafc2cc5e823;
 0x187bd8043f8642cda2b6bad82958d115818880eb80f6b730381d974ac5d5037e;
 0x21aca605f92a48ac35708fe5140729fb35c3e48ccec441217713b08649443930;
 0x173fd164f5224ac06c2e99f3e2eaa6379df113de30aa485e8bbcc7f0fd2d1e03;
 0x71c66a6463c3fd4292bf1e5acb6de611142d73cd1db590e89b61b57d44d69bd;
 0x44a40e396855be550d8ccce7b82ee2caaef6675bebe92266c666982ff72bbf8;
 0x1176d9f52e12df67f087110a15aaf98d1ded293ffdf99599fedef2e51569e4f6;
 0x6e8eb7dd026d257b15c6624bee2f37d5b67b4a671cfcdfee5797e8457b63916;
 0x696aa48c1d5fe84ca5cf59009ab0baaefbb612e32c91d5ef306def38dc5673a;
 0x853c33a9c7a7c3b355c92c75de444365db82d241eef9f3fac417004a3a1accc;
 0x3016c0ba34678e0a67f59cf96ce16e908154f5f9802591717e66e95ba25ab77f;
 0xaf008601dc9552517f303ff9e22c793a682caa93256f2f09a4f746542603b0e;
 0x4cb6d76b5a27a5aae387cb647790318c25fc16f8d7d1855a38765f847f731b0;
 0x2ecf70c372d8e5edcad49e58d47875f26933d62614f266e6b4f586177148565f;
 0x1f393a6ee74dd6c4d52b0e7820a7132f8c4889742313c06caa6ecc55f3dd413;
 0x2e4d4ce3f97bf96ff86b88e969d13e415e14721282769f7cf8c3a73723f094db;
 0x306000ef24a7f5a9c652e3a9367578554ea59bf8efa0bd8bc5776460c18c1add;
 0x26e58d6287678f3db9c225c1d3b93ae7c43a69024ebf249c8bde40617c2b3d49;
 0x9eee09f873d1bf683971df4d7ce56c8f0b8b98ddc05b9612c0a0d317310655a;
 0xf08879dfd4fa0dc11ded556ef01c6f94cc6f4d18553b08bcb1dd604392ec00c;
 0x11459f7e9f0e3c727777e34d6d93ec28a25bd867171523bad5be0d5a20029eb7;
 0x4e9cbb6f6e8e805a20fbd801a53b723f78c1f5acd227880f7f37f4e5b0528ad;
 0x2d2ff32eb7a0c0266dd46bd5939c9a9aae88b3e9af5dad01a7304f9868f7c7c6;
 0x23b77eb0f27e950200a590447d645a723d9b405fa2538a5cb76fc5fdae16d839;
 0x2cd6d2c5658ec0792daee2067e2f958d6849886318a6c1c27233a469e9998c2f;
 0xae1daa420bac90780d0c83026bfcc84af83953e26eca839da76861e739855e7;
 0x2b495b854553d02a75b68763bda6dd8ef0e81fe32b5cb072d3f580a914967bf0;
 0x56fa5d7ce2c32bc5735351d2d48af5d6c9256a4b72e12a35640b53ea959e296;
 0x2ecbe1a06b28ec78ea7d22df11cd224a0e1a0ac7a3476c5cc3c4e50da961a87b;
 0x143053c1c387f9353bd677e5db6e9975792bffeecf02d6aa0fe8f627579fe6cf;
 0x4064b25584499a011ea74ac047a8b37494189bc63342bb1182e234212d42bdb;
 0x100f61f6b81542156760a6d29af5dd8644c82deab5b90e6ac66de8b4a069564a;
 0x18d331b2e8180b7aa7055c029fa77aff4f02b0e2a2078bff67688ed65b51d6dd;
 0xfcf9b89e19b1a55f9b03255cf80ccb9fb6aafde2b46207d873fac80ccef085c;
 0x254f801f3c89c62436ef63df67d912c1f231bb1f76c6c7b497f7708dbcfdc17b;
 0x16d8e85e57819a10a61461bcd8d3d3c963c4f95afba3e4d8fd0d6ec882b9d161;
 0x29c9565aa702088bd443e4620d84bb2bfb93253a8f0f04e5cf408c92820ada84;
 0x294fb68064643d8beb237bd705a557871b5f1408624eda46d47b583a60d29cf9;
 0x2c26f3083140c104baf24c3df922317584aa11770451e6a846de7dc795197313;
 0x231811279854707dbaa537cb27241e7021a949a1d9671380a7d6944c838904cb;
 0x1419365adbb91f1f7d1bb0aa8a4b5d11c7ad0570cc6cf3638be9c5a2a275b495;
 0x1674425f2e9fcaa66eb001feca48ddd4b2a29e86d451f00d176ea35b4e02fb84;
 0x291f956def59b878028000cef03d7b54dcc2fe1dd5a75dc180d6d5bed898cd30;
 0x2f1302894fe6a26b5bc03fbaa69c4d95012394d78de494549c7057b7ef965bcc;
 0x627d6d6d94d0a19a17db45c0796f7db8de13d278a2b24c99ac5d92d0a1a1ce2;
 0x2ee297662bafebcb01df8e62bd5f50f03025515b10465d59f3a294f0bfbb2fc5;
 0x118029945df773f52fef5429da766b902eeae7d967062fdd879c60a1bfaba75b;
 0x306042d262f6268ba789eb4323c2169279752ffec6b8536cc68b53bd4df0e858;
 0x472a13ac7da9ebe1132e05f9ef609135c82a0ebd9278def2b34f8ce709aee4a;
 0x2e8f76b27b474180f00c5a6c2d65850bbf96019bf0d76dbb4743a970f42a130f;
 0x1e33984165f47c204a33fee31f613544b7d846a7d5ea45280ede4b362c32aaa4;
 0x17f22e27252bdcf91a72b59eb276a666ce4fea7adfbacb2ea9fdf28524b7b43d;
 0x547e7c70ee4e3fb4a4d386c8baa55d823a0f02bc963b43039b8847cff6e6c9;
 0x8ea4ccbf815be325ccd15494f38f3f97153ab09c54a87a852b2a99480724e25;
 0x277cb45f3e632718673ba05d48c712fe7404df9eff5401cebe45d194c67fa8db;
 0x159ec7ea49aadb3a8b0a23c1dba0023807b0d099d3c40b69df866a92dc87b37;
 0xc33489297e244956de579c5c112ab40c7fb2d89866a28418f660a86ee18524e;
 0x1bb4fcbae28a2f3399568c6b3849da27d6ddf4fe6adabb591151679ed37d21f;
 0x2a23343d24a9cfa3b8f413f52ee1b233ce4c1d5b9bf34b03dbc6d733d52305c9;
 0x707a6d515b3bad03a9b06d6be048defa850134aacd120f38fa93264016b7786;
 0x1837db5401dd6ec30ba6b866184da56e8db439ffd04154ec469b62120ce35cb4;
 0x244872a0d2766b8547e6b6a5afeabf198e1409a0f0026de36c101793952f6cfb;
 0x204fb17927ce873c761196395f7da46f679ca331832a59fddd2ae31e84eba1f5;
 0x56f53037d5d8efc7cf6a6feba18d102bf818bbba70b86dd9b763a12072f4c2e;
 0x1df4bc5d73239f5ec3b89efad53df9cd8ad8fca543be01f5f40fea2952071bd6;
 0x1ffb6ccbba001155d46e167d1fad1c13bf2892ac87cd9c347c734ab5ef658367;
 0x8ee36e881496539b0abd647d353e51b63fef91fc944880006f2c26c2ecf2a24;
 0x1c3080c254443332a3e6283d5bab6f7fce8aaa68487b9ee4e372cbc6cc172665;
 0x2dc6040500e7329f75a3cefa4db49f9b47085b1660f8873b3e81b7b1af82af53;
 0x2c8bca9dd293bb67db1f66ff2e82047ae9385ce67d7f33568cd4c216a89994b7;
 0x2a157b9786f9224cf63648aaec1b9f61c7a7087ed6eb8ab20c6c5469d401b7df;
 0x1e0fb0cdd8a54591c42e7c26b9027b77417e4e6522b472bfe61ff89c39bc40e9;
 0x250144d1cea033fd78bd73ee4ea4cfdcd6a42f7c00e2d7ee6794d464207d2b3d;
 0xb6b3fe9a7a525ca60443c4b78a8e830957aae0403116d22983a2e680eedff65;
 0x2fdf613e67d176569f4743b4963f8c53e52482fa32e705247eb650bc7bd616e9;
 0x48f64b14275fb86fc55b3c0469cd89306752827c3c04463be5bea66fbd7b38c;
 0xf2027b781c2c52490e11ed4b7b494d66cdc16e690b6a4b3c924dc9d6e854832;
 0x29652785160b261c1c20c741524a26147cc3191f33b74ebf17d44ce2f88b0f91;
 0x1176909e02a5b37bfd47810fcbe73af87fea130470aa44bdf6b058c4d359e179;
 0x180f26c6ce2a3a477baf0da58d069769c2bf0156d636f2255e1bc35c01e98993;
 0x2afeedcc2cec57285ad22e734fb7fe3dd65f62601c1ca4884a86c7a6a05f083d;
 0xdd21a87ee22626998dbcd73dd751affb49d47a02e995a41bca26399103087d2;
 0x1d21baa09d7f50f0159fa8a0b6e0d61446d1c7db5d1566469da6a85aa7224962;
 0x2dc59c4c9e275cd8c2506282cc5bb842c014bea4236b1bc27a856351b48af802;
 0x2cf62d08541dff0919ba68a697f44f4791c42d1447a41513ab9d5f755eb1f38a;
 0x2f5b8853e2cd2e47a9fedeea4047e46083c97acd4b687aebd2264e7a0eb354b1;
 0x5865328a9b2fd469170c391c5ba8db5c66eef9938e4da5bae33f2703c470730;
 0x29761c9fc3d2c4cc1b126be1dc0470a97b8f2725d327c6d1ca923c2aa8092b1e;
 0x1d3fb1f8dc3c77cb515c37bc810d3a5e3b96552d4bbb57fdb01c2aeeb1d9a048;
 0x5f2fbeb7cae0a35ee2f3a4d2964d241a0ceeb47b3f7c4c87bb3b052c8705d90;
 0x1f445014a0f266082a50257152609cc219062154f4d7c13288746954b97998f8;
 0x2d35917cb1d0ca611ee37cfd9078c924fc84bd1a4bfd7db3ce39e05b38f698b1;
 0x5a89a4eb40387b8512f2f398b6526efe76716951c500fc8dabc835775335ced;
 0x4e26aa3f02601174f46ced15594329e4f4e5bd5d7d53d5df6c8633a94dd01de;
 0x204d587d61526c1e047e1dc6b6d403b9eb8730f2e2dfb7bc7350d939bac5b90f;
 0x21c8ca213d2f44446ae90a6bdae5843b7c2cb53ed699f36675ea8280a2a420e5;
 0x1303bd921f32fa4c4e73af21457c46b6d69e2e6a2c396716217787b46e822ebf;
 0x613823c5b6abeef14387465317e713b45ace79c0e4433d7c4d352097e5c8399;
 0xf27c5305ee978f4f775e213e3ba12a901f51144ce1ea89bb5046930f5ec55d1;
 0x2cad11c693c6a627531950a307e07b30ea8a495115f5a5388827792120c7bdb0;
 0x16bb256883c44cf37366618e46c6db4e3da97a9d4ae7d5c585959de3272f82b1;
 0x29afe50bd78f72cc763695976410324bfd67157a5ccdb7ae45b00032e1d57a51;
 0x9329902e59e5243a726ae5ca35408a207148609ab3698139725aefe29aeb167;
 0x4b1800e600c90ec4776bc6af1764ccbdc10bf55c3314f42acd0531ad53420fd;
 0x298d0110bb90e4c35e293c7a7dacedef7ee9342a591b4330e27276aa13b67ad1;
 0x24ea6e68cb1aa6b407e022649aa32d1b7ea4a350e510c07eee43929395e4f82;
 0x22ae3a1a81c4550f5fa0116e135d2df2bd9f6835a0f0d03f4dd934e1320a3d8d;
 0x1f0f5eee9e9abb2a2f4ae04d6fe09311fe0115c1e199c28e22705e681442ed37;
 0x23c86606616f317af022464f350b4bee80c2fca32064bcbf83e8cd35dac06c7;
 0x2a89c4e5b074fbe67d04cb03efe18c4bf904bec4759b33dad6b2c86ebfd2b9d5;
 0x4b0f48c4f2e05bda4b9cf806075f9c275df2cf60b5fd11470eaa7394a82727e;
 0xedde5a2c01327ad042a686f443417bd8f107c99eb7c02900c931a7bd8cb349e;
 0x2cacacc9c9d8b0004d8932080f9378b60675a8bd853aad1dc50672f137212cc1;
 0x816f33508621f2d56371156b0a3f7731030e4b218e44c90a88cecaf07170dec;
 0x2ef8e0a455d472b49bffda935c8d3bee1ae9248608e2a52d53f4b76313c97920;
 0x17184a8af9199aba605dd1f2dd18ebc02e3055ce408068eccaaf3ea7c0a334af;
 0x16395e153937a83660db6f78446cb995836436602777d81f0607130b44881448;
 0xe174088223c38e9440fc77307d6720ac32784c9d2f591e2437eaea9b8f5e2bb;
 0x19e70fa937788f7a2127573d56c8197bd0dd096140f39064865c65c31b47d402;
 0xe434c329d5242adbdab24780495ff97230beb344b918f6f8d6bd7d21b03692e;
 0x2c88a82eb87c81ba42a211bf2ef3c15875ac157c7f3868fff35af9f55a8c22bc;
 0x111dc223e3c9fc7452a9c2de469383915f33adf4cf5b49fd2e01c51d09ccf436;
 0x10647353de3197b9cb48f4539b507e45393b000842e8baa1218af097f871baea;
 0xe53d64121c0a851c1b3f07423582034abce698525d0a47724354c07152f703b;
 0x2891938acb83ee193754969f4aa5a62a531081dbca4dec226258ea92984b4348;
 0x4106f95e4ba3fb74dbe4bc53abc170262ba00c7c63ed8c457c3227532c12ce3;
 0x2a73e61b8f1babfbb38b186f401eed0d92c5613ba25dd2ff4d099f7dd3c19fe5;
 0x18e16b24642f19193b798b923b8dd25f6e4856d6b21b729aed2281ab154f7c5f;
 0xd5f849b166ab9f6fc1a64467c5557029f359a2d0f194030c4dd875e12ae3485;
 0xe25250c57365a29c63a4f1531b8b0ef523eaa93c1d70acd0aa7cd7844dd0442;
 0xf813d14af0c85bcedfbf480b3d80b9f335853c60188526d80761274074a599a;
 0xd2356a92dbaae8c24a8cebed6428083ef2f469460f166a6e774377e78055435;
 0x1fb6dceb495bf90fff56c8aad70b40bf773ea1003cdd092fd77a43961e9d7dc7;
 0x2c0a70ced79951a75e23c5a323fd706c2ab87c381cfc3c269081627741c2bbe8;
 0x13dc6b3bdb05167dceb4b11037064ac5fd22db5e229e4c6ba55e8382321dc5ee;
 0x210fa8b777907ec30bb88dbd7c0e6ca9004eb3425d498025da6c90a47c35025c;
 0xc5cfa957139b45a72fbbf80a410aab5454a982668baf24b0dd3c04e4d599cd9;
 0x1f1f3bc4c21d633400fcf8bdb7be59b7f65cedc06bb2fc93a873b6ef12e0f52b;
 0x188f0ee95a9dfb03cd5e3fb30827057e933711644ee7bd57490374c0d67532e1;
 0x823877ebf8a842b77e8e0f3b44873e9409727101b186cae2b80d0cfa726ec8c;
 0xfe81603de39ccf148ca6390d6f8bdc9395ca2f3f50878283d98f1f0e61b1aff;
 0x2ef61fe192f52a9d7cebf41c134098f2ccae35cabcaa12963566768ff1b83706;
 0xdb6d076b2dd1b9f4d56d2f66fab4d7bfc6a38fef7f9ae1d4c2f8c44b1510f51;
 0x2a194a4ae8583f28189f9c011d107b82f279e6a0f8ca8bc9cb0aa581831c7d06;
 0xae539fa9ca67d4af48fb292f9188c9e72f2eeaae2e500b7e7201718c8da8de9;
 0x23f66a894b1df4d26a8baa6d05b1ace511faffd4605b36cfd12bb4c6dc2bb4d7;
 0x137cef522af2942aee9a4fb8017bf330e64601f466b56d32245669d9fe5ba707;
 0x187aafcb87841b2df9d64c1767789a6b221767e4634f0d550063a0bf92788c32;
 0x23212e75f4b89992a3647036ee36d74938bb9a9851e13d7b6e52daf66c4cbd25;
 0xf54cbe967770dfa9d068b2fc53abc96489bb7d266212654d326de6b9af16d63;
 0x23d83a60b9887ab4359b8569ff3a219bb81367955fde72a62002d3cd51101fcc;
 0x2ea676fe7f21fc583ab0b0e189020d42cb22f044607ee15bfac7dd66da5ebe76;
 0x16f37f357a0c584821a356ab56a16d41f045029cb515f58ede001f05a807890b;
 0x139093b78fc9603a4288ae5811ed1311be916e4c97d35a5cf18e4b7e47d13b03;
 0xaaba5fcad1c047030c8bf246f41610b68d60bad285cc15f55900f52778a11ba;
 0x1611827956f3435c1fc67dd3d37954a255eaa0196cddc5d5a6187fa0a2839efb;
 0x23db56362f248912421e5f087ad16e0c9e6d2bb59db30a52818e41964b7d8126;
 0x2f215e640207a88b02999c98f1af8fa17331d19ea3de1decfe8f2e478224209c;
 0x2b2a261917c0fecf2bce19021f8506e378e9d3e1afb451e9d162b3d93eed8612;
 0x2f662e4cdfef5f822cb956df75b17b46f17b08f930f54bab4324a0363e23384b;
 0x870eeab2e7bb1e82c426c2ab1d65fda25d426749a538b4ea669eaa31f661a00;
 0x169418dffc99f2ef5dc6b1013717c134409349d846457985725b15ac6a152fac;
 0x21d3cb240d6400339ad5bc535b4fbb40919ce6b90162e51ec6895a7cabb4375;
 0x12e45c46c45b660b6addc149e4216eeb6fb19474c8cce4d78e34c3cc18024afb;
 0xc7c86394b7ad61d8c348d185403dc77152fd310b5d05970375a11b5abd03548;
 0x3024e78b217f85d8efeb60008ff70d33c3e84c238d9c21a04121b498a2fbb131;
 0x235977101b56071ced3163c1ec7187909a3ed7679bb54ad40811ba318e1afc81;
 0x14bf885e66f7c01fd974efdc0bc2d628ed79ad6fc6ba511c5a8ec383e1a73a70;
 0x223325ae7e73cf093e1d5891aa92ed43f82610f1283f265f56548b38072f38d3;
 0x239a5ae138dce6a019f44560ef7c19d2b8025dadf040559226f54870d318a57e;
 0x1dcc35115d9057efaf468d7c8a7d46048e01359c974855bc99738f0b247672e;
 0x1359a40012c5332587a4deb5604a436e269c282ba240cca0a6d77b343e76bbf3;
 0xa9ee39712223d4c0c37c26a96f267c85fc8e31acaee0c07354d3798dc5003e7;
 0x11812d1ca3671ae688a9877233eeb5ec29868f7cd7c5e13275391a84167e0231;
 0x2435cd699bc94985945d878960770f9298d40c0e28b6b5979069e0590952f0b8;
 0x2bf020785e4117a1ea5930cd5355303bf9aab2a1ea0d6685391f40eeab2af0a0;
 0x2cef6c78577c9e97a76855292ca92e4269ac53e9b7439dffbac2eda5c6758024;
 0x9a30e00c9f0f6f260f05f029cdaa7c7afca506a5ce562c877b3b8d543135429;
 0x1fd85928f8c8053c9b264a74f121b90bbf9ae8063e0e89670165b9ba66a3e7cd;
 0x24482279d9efa57862a6cd4524aa289e6950606df8cdf8fbcaed4b674fdade91;
 0x10260a39cfb0d82ad8182a6951f9c780a455fc1de48c417d6ce6b27f36462185;
 0x25207827a76052d489bb2698730d5c3fc97192a4420578d2474a37ae7d7e3148;
 0x28e36b634ecbdf7b8e4f9e1a347df95d771f15d97f2d5c401edf6a6e375874bd;
 0x73f0dea6f83d443ee3ba27c5b7f0064ab7cc0d34babae859f6bf66d46a1e165;
 0x14c6618569f748ff65514437adbcfa97f87b9b0d169048e84c553ba9888c451e;
 0xc7675a042ba6cc74fa588a0b26fdc4f2d1f119a0fe6ef111be6a2d45b4bbcad;
 0x3dfad7db3f32c6ed8130c43cff604dbe1c29dbff250c684c955f09e495fb34c;
 0x20114281fbe35c188164fc6d4144200fc1d9ec433efc677480bd2cdcb35b64e6;
 0x29e42f5218b1ea3fad06a48e2292c0fe3df08a2c4a823a3be4b998955da8a21d;
 0x13bf4039488d94b1b6a67f256296daeb6c7c80fad2726d6e9be11e17c2352816;
 0x1847a4e36b3eace13de58fa4662a9f88c9c17a464e6dbd2083c2938c227ee3fa;
 0xa7a2056c7b79384af9fe3c6826830145f51f6f8ca5d1a344e295ca7663ada27;
 0x181278caa15bdfb5940cff2bc3216ff06a45962d4979dfc0d6c94993bb7de86d;
 0xa8a6f4fbba2ee09a36d390fbb1485fb789cf3f9f641dae011520c8f10e57a43;
 0x8f6b4c0d7bd5e4c87fbc6874520e3329c067b6841fc833aa37514435e987cea;
 0x2206b2c18f3292e7a9a91039683a55d813dd914b0c7d523210424ff0f2817df7;
 0x186cef5c04b3a6c32da26405a16cdd359df57be8e93291acbeba3f487329cfc;
 0x75aff67570ea17c7c79c9114c7a10d533c6080b6d15a5bebd1204fdcde772f0;
 0x2b06d8389ba9621c3869d2e8b25ac15e2c97389caaf7f97a35700be66c1655a8;
 0x4fc6d0a6b67744428161cb5228a94e7c0e95dede804b2b47a18055acd737aeb;
 0x25e4a295b4e7a2dc71394d41ec2a8f4b124e58c234448a028a2c3bc6ad25e69b;
 0x94c24ab01c6db594fda907b639a7b3a54301439340e889b6ca9cb6cba067b0;
 0x2751821a6e3b2206cd6bc3cd5d98cbae8850745ec6cbbea413e7254d2a514549;
 0x145aaecc24e3878db9a8d77149b2419ed5b42df025ecbd1a8e97d8b817904bb9;
 0xd2aa00cc6e5167d845ee1877b7aa059b5e5151c57e4c163da3403f9a95755f2;
 0x24233b69861c70c449ebd36e4420ddfc3c242b69ff6e3d4c6090c2bd08a764c2;
 0x2c55fe1a75147c9c826f762f836d5645ac4184ba1927dd56a76dc056a9895667;
 0x19779b1cb16a9c79654016674978b8b6ee1a78b64579de93ed2d67b9e49f098e;
 0x1807721ba60fbae476ff60120c1f47ec0bce692cfc00102ae50bd9376c5a22a1;
 0x1c0208f5aba12750802fbdc3bf12eac9e00ada708f167d4b167bd7d4b03d76f1;
 0x90b6e28ff541cc38869abe2f5dbfb9fbe888d21021f29d2bddb9127d3c273be;
 0x193d6c7e76ad94eb59a20010a799c7bf96a8dda8c90887d65214c8665ecda01b;
 0x9ddd5bc0b1f8d4c4f1a7a102c1ba12ec7e7540cda285a564ea7c4753af8a8d1;
 0x300a1dd5fda15d1a9cfe2a287801817168721da2f970139549e16811f555be1f;
 0x1520908df2eefba075bb41cfe0740e1e5a1ee181ce492016e152706e493cf470;
 0xb3f215d52e85ec3c682698ebcb6228233ae9518f9450f480689e7cf30137846;
 0x50996a07af6765c56a8ee2f736650deb4972bfcddb194a0efeb1954daa8a4d7;
 0x23a59326daf5f94f3b5192c18ed06cc58cd9608e44138686399dc4f1ee807add;
 0x1d220b9add0592866898ce834b1bdc2003976e815c0cf7d3f6b8bf967ad56496;
 0x19b49c4da3d9e3a26d36566738658923477c504e76a38a82b1b1247104f681e1;
 0x139decc567b06b495bd6f3cf006c05b7e1f25d5b7ac554445c37dd285beaae7a;
 0x1a5a7d8bca8d4f07d4cd6e9bcd00c009e3099e99af3080debbb21f90f8e5b425;
 0x621e3811d3dcb9584d0a8be41e431d588c93274c8549e625f98fd15983a809e;
 0x2a41c2d2bcf14664a0130a021daa6efd4a3b0c3aded38635bff97e3785ed6bd;
 0x21cfb54ba72fc06794947cc3bda33d815355416e2aae19084d84471eedca399d;
 0x5115093894089a202a4cf8d0aea329d83cbe0ece741160f9975cf01b7c85dc6;
 0x2e40541caca7653212827129559ab422a1c06a6f48c974291470c65fc070dfb6;
 0x7eeadd730284f5ab60778900b60300d27970001aa63e46ebb7f9cda1157600e;
 0xcf33e4964d350adf2051f8e2e8448d3324d24d3f4858407f4fd60d3333bd98d;
 0x287c60483e2db313f1a2bda92c1e1c28b65ef0b99df4acfb75709edf6a3bfcb9;
 0x289440f4b7fdb8b2b22661d0742e9695139c1a1ecef53c3febde0b5f6d9bb4a5;
 0x291bda2c37fac962a24555a7abeb36d8e8b9eb25222f97f4817ef2e5b0bc7208;
 0xe105449589412404cda7b82f14d527594ff99d04cea894d6ecc315119f42b73;
 0xe6097f0ad418ac7123ae7eba6cd4522b7ffa8dc8cf60a1f836be23e41ec25e5;
 0x22fdb676724017afa8a8069c62d307aa4ff52c1445ad41b94c3e406e33e0def1;
 0x204d594ad7855ad0f6950742b19e60c2c5338817aab7ee7bf631c3aa92160f1;
 0xb6a643dad3f953877110517f7b336518c8fc11d868bc72e76cd76c3b2f7dc1b;
 0x4189ea6c2bd4b00fa6349adde17027eb7d76353a10bd07d0942639447cb43d3;
 0x23bc8449d898a7524b2dfde263036cac2e14935134f8c3baf7f1e13ea2deec3c;
 0x17efa608d9941bc64d39e0b2593b742576dba257fab323d4c99c7a42107a16;
 0x2f061475e9d8888b3877f9308e7758a16f91e3a34a5856f15ad0b9f2f92e2b4;
 0x1f257d4d6f3277674a061330d73d6ba135da7cb0cba318686872fe1ef6d52e25;
 0x195340f6c1f7b5f6158884bd237715149cea488edbfd80fc9b9cc61c384853ab;
 0x273e200179c5c45d860b26a20b2c0853c1008f942459d5cdbed633ede031aa1d;
 0x24bd0ecea1e1df97af0f296c0e792d676e2c8e02e808a158bdbe01431c5e4a48;
 0xc6e6f0f7c20811f404599d458af5c6cb41ab671599d6350df38e82104bc6835;
 0x1dee1352470235cd8e129b5611fa953706bc08d58f6a3ef3d80370d8d19683a2;
 0x1be0cc30343a168fda7c757ac0c7e5e16afddbfb7265878080725a12fa12ad4c;
 0x1a449abf644f68a64c217c6a042a231107ca8d9c619208580eb76bbd9215d984;
 0x80117dde58f228a459f59d90e64babe2daf476a9a2ca018faa3c5fecaac1789;
 0x24ab9a167b61855e0f2c60bff098d5eb7d15166fab51f2b62c809de318d6d176;
 0x2b56aca9d595460503363292bccdc80e823201f71b54bda684c93eb0893784f6;
 0x57361ec23c87b30080ff1cdf3467d57c95a12afbfc48ab5e1e4de0162a41b5a;
 0x1baed177177a25ecbbfaf4f204d9921eade3689ba1378cd9362cc14145089f95;
 0xccdb6d5f4913d7656889c312975fdbe0e0309a841849fd808d75f593a71481;
 0x2c52f5e1ef57de5dde528471cc1f0ee7839929df98ee743d9eff962515561910;
 0x234a4a32f767f2e1ca48dad3a2fdd3ff54b2ca3d53ce13fc9052414ad7f7555;
 0x182b4c0c551ab0ce1990b472278f794ba9cc62abcc90a89efdd80776558e3433;
 0x1ab2bbdbd043d2d7d1a4eb76db4de71fddf19edf10d7cdb9550e1846e53fd5;
 0x206e6cd1e3154c113a762a628e24940907b41e90e7c2d43aa256ea5249978358;
 0x27816cab4bec18577bd335bdaf8298798a261bb175137177d46ba95dd03dc8bb;
 0x1680b632a04be3eb1ed64ef589440b3f9526b2ad82cf0b8839d3e7b0f585bc8c;
 0x196b2cc0e6e07628df8234f58c027c190c75b0342511efea4c3724c4fedd6e75;
 0x29ab0b6065ebbefc684608acc6bf3b5fc693770c38bf91b4be38fe6f72647486;
 0x224ce814d39c382da2d65eccd9deb48056ede18c5efcb8e25515b727e540a859;
 0x195e1cb28f38a9cb57b2c719b504f5fdd1d42559b6a368264fd0fbfefa66559f;
 0xe9e5eb70f4490ba6dbd1c0ee1d6724ccdd58acdf138785ce98ee3848ffb7840;
 0x1995c9c8e520014e4412ec653839d781548cf71f46fbeb51919582226cbd5b21;
 0x886095cc376c87fa653000283a6eae11008982f27104afee198fc377f26e324;
 0x13761e206b3e89b23de2342bfca860f9b0d9a36d486aa115565f9f52369c124d;
 0x22a8c6cfc0e38a500a47515c519ad6a72506ec0d508de25942c10f51f0dfab81;
 0x18985e9c7ea6f1a16962e4e27cf1aa4aa3086938b13f8ee9465a5ec7bebdee03;
 0x215b523ce3f055c92eb148c00027d1ad406a2abd64081043e0d15492845b31a4;
 0x102f78c7513b093b885726b7df2e70298801b3e4019cdd42239d76448588c31;
 0xbce88602fd3a0f0ab8885891ad44045058f9ace11fdabd24e8dfa1b0a4ae727;
 0x745f760f8d466fc21043e2292e6cbb20b6227517f5200251129c5481f52fa4b;
 0x406de3807445c6d3cbdf7b174c410a998a1530fcca991535a2a262de4e2ee56;
 0x26779e7346349068dbba66f784f87e243cc27cab59e887f7ed7a0117887d1acd;
 0x25150652a08af8ca574c7c5c77ffd98b17259a1d914a6ea41db75014267949d8;
 0xbb8d13438040f674a79ed42202c5bf6e67de6fc3f6b65ca837ceab795fcc6f;
 0xc1ebf40eeaac3d4a192dd50ee25c0067f66eff6229d045d5a801067639ccf2c;
 0x1a39731eb32fdb51dd793754f76103b5cab86947aad12d490d4951932ff20727;
 0x2baad3d41b18ae10c463af1662ecb28c6988524edded36943672a0e857b960f8;
 0x2e778da1518b6a4fad2e833e41466fb2fe82f4f8df1b5c218cdd3b7e49af67e1;
 0x156dc717930d6490167743911e9bf4d4634ae049b53adab281698645f8b16dc6;
 0x117f2ef1712692ab9dbdc51db4968b45f5e0104f9e5281329349d908b23e231c;
 0xb281b5d9dd2ca1a92e2d83b5087b6a08d6ab08330f47512aa047b2f88ba68cc;
 0x1c2803766dd9096567a3366061764f8c916f2a2dd640b6eec0942ccb75d40767;
 0x120174d53ba57d1a141bf40e4c705683668bd55800000aab6f34766b7b6575a2;
 0xc37b25020f8c76ea5536de54c722e47d01795d31b5ed73466e7d8b8ad376d46;
 0xa508f345cc9a8b0c30ba27651ba1c3ad8398025a4000a5c2500228c44fa91b8;
 0x12afa49ff4d8b4c6c372f7e065840783cb9497eeacc847a340f61f1823cb2a8d;
 0x29fc37eb5ec7cd004809516b7aa3c716f4f7f6e7772f443e0730b01dd5071a55;
 0x2048fb9c1fdaced0fdc5159490db2977e57dbcbff7514ad1e52a271bf84dd1a8;
 0xa6c4223aabe583e899bbcd0314a4743181f1d5e03dbc11c8a4d02550fab64f;
 0x15f462ab5b21c31557e25d9c22d8dc6a0cca93c8ed68a35655cff745686764d0;
 0x27bc1c9af68edf8e3730197124be559f1472e7e3bba0d35e079b2d1b9e4271ef;
 0x1a2ec148f900eeae38c0d3d6efda64e146929c71eb82da3139a3a85968ec6ebc;
 0x4ff41cb553ca616d0616545922f2030b71b2354bcd1c55d7eabcaea8904c22e;
 0x2f2c4e7b18a845fcd6add67009fc237b14a984619260a7b3d38712e03a0849b7;
 0x22925c606a1f091c1d5c7122f8e1a8ffea6a140031106826ac53a9c69d84c0ab;
 0x10e2a8c7b12bf70266c257573ca2594d8811633f77822d7c232b329c5b4e7279;
 0x1712319595ae464992524bf8e488b783fa45b3548cd3f162d586bce31ec7184c;
 0x2e9616987d3333388ea5a1cb56b4c161f279ff19454a64ade43daed4dcda5c0b;
 0x2c68210d75660df5d9a8392a2805ea1612fc6137cf5b35a68fc1f03acfbfe4ca;
 0x53cf3707283df8730b6e1f637d23c67b0b3533061a35bcb0cb0f9bbe4e8adc2;
 0x7577491483d03d7769dacc79607b9897081c0095decdce3d227c059ddeddb66;
 0x5639b2324c0b0af81c5b256ca6b2d46b95eaf855fc26cedbf90411312de4a12;
 0xec90944eb8fc36c52f3fd13763714f41cea1ff487ea39d70bd94e9b7f8f16d5;
 0x1e96cd3ac345bb2e5bd3e755922f84afaf303d6fb227fc68f703b93665f5ea96;
 0x408425405c66baa7d49858e6d5871e5b42ffebb0df885a824942da1e2e36d58;
 0x284d77566b42f3913d41ebb0528b899426e0805aadb9957a534b022b081aa977;
 0xb044e5984887cda337f58c7ca50a78126deb5624f644516239427948d7d06bc;
 0x486972179ee3496795bded1c2fc9674c0c3f71b58150c9c525063a6f2b340d8;
 0x25b7568316c4b2fef9b72543b6033b317a7bfe406623e47cb68e5c79296e6bee;
 0xcec9e74c344198703ceff28a4d11275f6c5c15738aa5a54a19269261ec6a8a8;
 0x2bcc34a99345174c97a65e8978194486a9957c9d736f0ca39b98130801d1a114;
 0x2ddb2ebc0ac98f6498c0f2be2d73e86a786940a1e8c558d8dbed8d6f44b02551;
 0x2642b4a208e503e3480718d4d205351f43da183ed284ed7a385ef7cdca80bea8;
 0x23fabdb09b481bc764102ae85ccf1e6ff71c7762f8bad04a2de3f7a025cb5087;
 0xae4ed0ea6adb74b9d327fbcd01dbf37f5f6c467480c8aa5f495124cf70b823e;
 0x9034e1a646d6674bef041afa774e3634faf8adcc7c71bc2ed6e03b0b4492016;
 0x2817ea20b471a4bf138dec79d84f9f6c0015e0ca147b650683df4b3372b55ef2;
 0x2dfb7f81425c2def6bfa4e833e51e912298397de78fd2aa17f6d1dd2f1379ca9;
 0x137b5bdb746523c051d680be08daa6b0d54c9ff7099f2bf5ce894c24a8ef1f37;
 0x3900ec7adc8e28af7046833dbad3fa1024e382aebe02bcb535243ddca21aa85;
 0x2b285b6c23b25c52f2079863c759e6a10c33df8f191551ead53ea508511cb555;
 0x1242067be2202d1b2c32b79c464e2d6c977e6fd12d8b35281e84c375864613d8;
 0x1e8690f5b0a8729b9536ef2920abe7e6f3eee805237b158d997db63b17525eef;
 0x47f5113e1287b5572c82edb369fb0f717a91f261ef9d81764a5b279ad9c13ba;
 0x2d8800f21cd6774d5a6aa58ae2cd32593593d173b687122a4d61c44743902105;
 0x274ba1521d5bc5c580647f10d1a4c4cadeef088685d1976979bad813756f84b0;
 0x17895b7c10d6a475310d34a0737efaedddca8f1eee9d8d56e7fe4934c8b56441;
 0x6eed11ae9f70df5ced09b1a6db258978cf5becad2f66d15761bf61e7dc13440;
 0x3036b521c631ce5d3599e37f6a5daf928842cefcbcd2c6bf84e2db5ded748f09;
 0x1f52d6e9ac28976c5a6fbf168c818478645c90d72e367609d7d7805a6367482d;
 0x2a0e60356875d6ace1055932b3dd9ef39c3dd871091e96a323c1596cedb35e6b;
 0x2089633a6194f3ed38eeec2c8f54d0c7f434938fdebb9c0e1830dbe5311c38f;
 0x178c73d2769765d85383283fdb0d769457cfef0612baa963336bac1240b604c2;
 0x2fc20bcaba9e3d96ebcdd710e3b341837d5d0db849e789f28c4be5004afa19a0;
 0x151a423bee67fb14d5ad279f425213db7e0f21494982df872354c01f0f4a722c;
 0x25d61619e135690c4e10e4afeb4f5578ad0f8e25c20735366895b31eebcdf47e;
 0x15dd579bbd075429301d7295d3e685d832bf9f36c51277d09f2c3a664b045cd7;
 0x236fa29b81678c8a109fd361c1ca90adf4423c13cf5b8cc1032b7283bcc959b1;
 0x2a80cbac9b884e20368691bf1567cb7320537a977da10e53c5baea3446c01d1d;
 0x11d4cb8957937b3628a3b3f4d27f276cc0c179b0c22b2c13fffbde85fd912378;
 0x1289bf8ec507bf752a07c9b71efc0f800a52fbeb1637c5010fa54eadab402946;
 0x26f842b1a99394297d25799f2f03dc9e4903e77d2ddc03ec2fb155466da6f303;
 0x15944b9954b6182314e878fa2f9e091dcc40eadc48d37d39bdd5f09905c3a369;
 0x742166dcd8ebd8576a6bfe0f1fed13793928f84442c7465a0012f584426fadf;
 0x8603d5a0e937b5353b56b05768fd50bde792e72fd61c06344cbd735707b68ff;
 0xcaa1711c66e9301b6f25e21a31683d80bf58d86032d03bfd25b9777edb74a75;
 0x2d6506da695d2087dff87b5f636ee676fab00c32ae45c75b3db345f3fe74a311;
 0xd9244b07af9b6eaeff6f84049cb2e01d75dc4cb68533606e976b8b300758c84;
 0x243abc3c3382faa5dde3f1c3b432042d3f030ef6a1f5401aa37acd15cb1c8c46;
 0x168416e0a6d275d30eda3989242e0723024727d3b0791b06f8e1bfe8efe40198;
 0x1bcdeef03693d1ad0ea80c65688654affe634aa14cb11ae3a491681d9c5f8eeb;
 0x2f66bfda3d2a1bdedb0ab8bf7eb1c4e551bef58d94fad7f7c231107e5653909;
 0x19f6802171ab82a5922f023fdecc097eb8ac1fd0a1ed349afe9a7b94298975a;
 0x195a1c738398feed8c760468a0556c232645a1dd862d87c1f508c949ad52c3ae;
 0xa36a3a46e6ec16567dfae1f853f360e6f24924810e838cb24ed1b0fce37f1e3;
 0x2123c29ea87f7ea7b35c25f9e8dd3e81bbc3974c3c17c607cd840c09f374ae;
 0x2a717499cb6c31f71f0f0352b0f5bfef3005b80e93a520b6e42b3985789e2d3;
 0xfc053584b0a4607a2293e18baa309c52fdc933e9ba90fd327aaa8c8cfc4daa1;
 0x1310d1942129737b32e87a86f4573032b1b99ae3c6d71bafef7b494794855541;
 0x1bfadae53fc82900f5761c558fee5e1218e6b2a6657e74b540969eeb49e0b8de;
 0x28c08a69e5f3641460ff2c60b7579395650c5b6afb392da142d32de8677556ea;
 0x223222ee42b6ca997f44d643ed6a3f2b040f47fe8cd922163d9d9d8b2622d909;
 0x64dad4752e708ff29bb0842d2c452a71448b43949345690031cb125588876a0;
 0x2d5ddc21797043996b22dcabb9a1ba6c82b71e9a1bc5919db8befd35411056a5;
 0x26315fcd9b5e1a266ec8e9f6600f5a6e0bcdb22f926d61591e83fa21069c0e0b;
 0x759273a4177fcdeab23da38b478faf2d4f22e82f346aa754b0a1331bc8371ee;
 0x9e13300eade70568fa0a840ea9729896ddd84c364d6279d34a0b9d1478fcf2a;
 0x13e97ed3c16fad6cb5b7bb954f278f2434b22f8cc054463a145cbe0240d4f8bc;
 0x5cd3486dca58f4eb221bc2cbedb8aa3027cde5765971bb1f61c272c5aa51ad0;
 0x5ce523f6bc21daf1df468b12fd3e8665e1c1697816a9a671a3b2b6149c7de4;
 0x2103066cc5df55e67cd7914028145fb71f089d671c83c5b537abea482b2d8cbb;
 0x39f8077bd9b71f91ca0502eaccc1672c539f72329317aaf8173d2edd7636928;
 0x2247bc0cc4373705b89672a2205346e6af3a6422e81b4f4885dc3af7cadcc5c5;
 0x27bcc768bd31b9d00687a7e53c3ce53c426762706188790ea20b2e819638df80;
 0xd91cef51a76f7a62c51c73a2809732d79ac350159814ea536487368cfdfd708;
 0x20a9ecdc649a26388dc68dc02343a0f167bad46d6aa1cd008537f627ba140730;
 0x23134149a0d4567c6dfc911d5cb80c1a1016220d39e0c230325dae2941f528bb;
 0x2a07507e9f030a42c6f29ccf1c9cc4f3e5a5b0dbf05874d5edadc03fe74b9474;
 0x1bdf66bb1d57fd788e54ef29f06f35fdb2729b718ce81152cf3aafc64966110b;
 0x275c33d07f9e7338ddf50783bf158d51be619bf77a12020cf5630b78e7e0d0b9;
 0x16411554e55fe604a1ff1b3b5b7afb6a2bfd0f32c4070b55bf1ad234e8b28116;
 0x73e6ac7e6af227557249ca1a5c55222a36c641bc2851a0dfcfb60831f6759a8;
 0x10a6fde88c5f621d748543c76a218f95c202bbc3baca06838f31331b0556e12f;
 0x29c5865a26588ca8a88128a072c8434cc97a1bcec23e136f038d29dcf96b0eb6;
 0x233e0ef6ad132ed211b1911cdd569576fea8c17ca64e4d5dd516fcca07212c1a;
 0x96f9b92b9cf2c7d664408a29860365f5b6adc238d878a476bded3e4d2e0b840;
 0x2fc788fe8aad4c28b943bb57cb90edf6d7b1f1e835de1fbf3192e395db785554;
 0x1bac0ed609233148503795fc5e114076ef7c9d722bc648dd0338d9689f6e023a;
 0x1c35268aa030d6cd148e106e3fc23094e561573d8c72a69fc383643e2adc82;
 0x2bb1f8fe5d998d0b8b92837ffb27bfe7a39ce39ff94fc167ddcc95a7202e34b2;
 0x1a98576450a43e5e705b9af68cd0c145422da23945630b10b8e821dd61f9a2b2;
 0x2714d37ee506efbc2ba9941043fb23f16af966f123d653f38388bcbdd50e6037;
 0x175d0480ba14abf0bcb8075a03f4a2a01ff7ed75413917b53e50ea00cc2a4ad0;
 0x203de45a037b75ef63761750dce08da2be7709701ec8158c17fc026fd084d541;
 0x265aabfc78b70ca985c329080d6329a12560f76b01cc3d431a7283022193abf8;
 0x135468dfbeb70e8c2edaffac8658a6c22b2ad1520ac0819c127af2ea5f3a87a8;
 0x216a41e24329deda65a8a82001c84ce8286c61758447ff1bfa9d9293b6711fdd;
 0x2887ed49797bd6652bed8bb99ae345ad70d1a27cdb21b9460bb6fd0d4fe482e6;
 0x3e2bf82690c804bb6ee3c79dabd1892ea53a9811e2424a19fae446b8ae49cad;
 0xe6dce1bbe6e9e465cbe14dcc615611867414676dd8a8ce9946649b1c4e81116].
(* poseidon_bn128_constants.rs:11034-11094 *)
Definition bn_m7 : list (list Z) := [[0x2abd9e16b7b48289aa19cdfec726fa3fa15cc1625102ae511bca45f39d337e9d;
 0x1b4bc5885d1cfc8eb691875300db5a0c7362ae381898acaf8b63cad04ecb36c6;
 0x8a72fbb55dde3e93c5818571a424a54953695029eedbcf91eaeb012751c7f83;
 0xf95359a1f6845d4921892f83e500bbb1b3d3763d8fc762400af039b0abb83f5;
 0x16f01751ce985328afde34d81619defb43e6c7b5dadf52d0f82472fbce7770d9;
 0x1c391626328457fcafa629f3e6d33e2555e8d885e3c07cecc8af1f4d56596417;
 0x970f671b9ba35e3e3c642d1e0b8032023ed5bac91c2c1056f03965a42c5297];
 [0x1fe9feb5c7f7c7a426bff032cd6a3158278b6c6b2cc57a871213fcafd6427989;
 0xcc7eabb154aa7955eac47a19f6437a2b8dec0fe9e5686150ff6e88b1a7b4bc4;
 0x393efd96399aa0726ef9af79be8b6c715e429906ca0d15076b5a990fea75ace;
 0x871233835b752ea030cf8a4f43771296eeb33f697d1b0825db47d39ac9e5955;
 0x1a02798f047a51baaea34fcfb26ca6afe96a5fad1d2db4270497b6e6504891cb;
 0x55665d76df3cd0fcb713c234ea79d06a31d6e3e4c3bcc657dba4c664d5a0da0;
 0x26ee9691a638edc7c91887e302fc55e8e7758286a44845ad88fd7de3bb1052c1];
 [0xcdb2db9e4f9d732d217c5e3114821165d49e5a2d41556bcd53d0c4d433224c;
 0x12f3bb29c972793182123f5c49306e16a3a787c4bcd9c798a131b70856d1cbe;
 0xbba9006404c5ede82b527677daf444ed43fd1e0dbdc5528dd2cd1f17ad73481;
 0x17e4e73bf701f88d219acf1ca6390cc1e17c9f84b1713820837ca070be84a2dc;
 0x234b8a077ef52b53a343b8da5b20cc358ad60760dd60276d485015f73d53d207;
 0x2dc3fd77394b7b5ac1cbd1b46e6ded5b835d7217a4c50a487ae9a35a7fd45d9d;
 0x1668477640fab14c72b1c16ff0192e48cf882f12276bd12f97f82c6ee2e61e48];
 [0x9664216ca565c1a44fc2b98347ea8b36904b3877f2159dcc999895adeb4d70b;
 0x111fd8dfce2bd3b7ba0cfa93e20fb685abf76d77305857b8df30914e4849ecef;
 0x19f53c0a592b3ea93497a511e56f66753598265b1ab6774da48eec04e4d93426;
 0x19b683c39d3b002fc3523b7bee5a60148b1dbdf18dd1c318e6a541e8cf66a174;
 0x2547113a818779f13e3448719c7ef100b8036bb3e882dd5e6456c35311c1bd5b;
 0xcf148f8045cdbe7bb1013f72ebd4126a3e35cba9a970441ba8d5bc76943b0b;
 0x3008421eed767a093322a09c3733973a038168cb28cd2e1f709076c00b869599];
 [0x1463f51d4a4cb1eba16dbc115566aa48fe77b43c244c9988a3c658d2f56493d6;
 0x16afd8f4c39038b8006a59d292aea84731c0f83832a61b82250ed90118e8fec2;
 0x2296361f3bf154efbab996921936e9b1dff8352711f958638172055333e07579;
 0x1c3160ebaeb10f809f69843cf8d5bbaca198d1f8e3439be29beb92d909ec891c;
 0x94c66bdcff54382cd9213abe43312edb5b4d414c6e09acca24912a7635404c6;
 0x2e883bd408c4c826d004ff777d7c0938434ab5bb84f3420e5d94b853b1746f89;
 0x228af6d425e91a783dd18fd89a6b38bda053f2f23c094b875f27cb3abba2030b];
 [0x214e41788bd2b990347c7f2a8f47612d4dfceb1a1e6da38165873df66ce51f59;
 0x3fba82d3f783620873da94e9f4e84c8b529d76f54e4b5d7d4805272af9b9775;
 0x66782fe3e869de2cebd7ebbf60fb435785329dfb12ad9bd1b4e46ed36289511;
 0x1c5cd6b23ef336be01efa37a27e6b7aae5d1643fceeb212cdff51588835fb537;
 0x2f3b4bf0f105f88e27248af094e29feed9ff3fad9a794e15830bd2b311539453;
 0x2f4085eaa9f80a69b739fc23f2fe4057f64729b311783fcfab3a0a36fc1ff432;
 0x2363603349e94f520fa1f98fe2507f6aae361934078aa59a16214c088185638b];
 [0x548541724f64e20128260899abe8fbcdff184a1957a9385fb715923bf0fc79d;
 0x21c5e25a6991364e59a205e5b01c811deeb095680a72928369cfd2de71b14f98;
 0x11c5cc53f6338c825817aff7792a2efbce8fff171300d41455a2edac37663d02;
 0x27a0949fdc9f10495c4ee7214aa0edd2ad8eef68f577da8b96f9d87a39504bf9;
 0x1c7fc68f3fbde4a23c455ef0d0dbce0ce556a0194e6d552c0455cbb5b0c230e2;
 0x11d0f56fc00e7d85b3a2939fd33991dc8abc1ced0c3f3c530cbfb4500d63de9c;
 0x1b2e9d20d9b55deb048cabe1636f0e96363bec886679cbd91f332fb2bade44f]].
(* poseidon_bn128_constants_opt.rs:469-587 *)
Definition bn_C7 : list Z := [0x2197703fceb4cbf07c6dbf46c4ad93e7d14e554db66d09102ff84824743fe4e7;
 0x1322f0fffc7e4854bd8b5fc23e7106b51f59bd5061d8b565aca2fd3efe512f79;
 0x19e414f80380aa2d222133118c337d82a8c5894c2f88861ee46f448fa9d61359;
 0x22241199a4df9cb7d65249d9562cad6c65f16460e79a7939cbfdd6d7b9209d9a;
 0x301061735384dfcecf9a311c22ade327b51c78b211615f41c77f6d85e8a41b6;
 0x229e1d86c1f2810f4a2633b7b4b5bb61b7dc5d19ac95fd8d379548ff2b6850ee;
 0xe31dcf9c53209a817eeb292e989727c3f56bff65883afe5fdc28ac3dfbea675;
 0x68f917bb1b0805e5b5888b6a97824395baed195b5da0b71c42abd091c2ef54b;
 0x1d0bfb8bb90ac234002d837715613297802a5bbcb69aa2da8cfabd832f52d7b2;
 0xd67c182fbf41c18d5afcb48be20237413f02a64dbf09eaf71f23a14fb9e2103;
 0x3058909cb103557706304b9bb64d94aea4e504d8fda8b82313996f7962884886;
 0x4d06a80196e10e664adfefd075d0cca04961ee8a89f4fd6d601eeb9b60c8dbb;
 0xab062f8d4b5ed0ec21bdb42eb3fcb0a88fa13afcae4523d2386455228407b56;
 0x17380754792ad5f8195e327a5a63cd7570cd1994bd6a130e01c1fa1a173d4630;
 0x2d4f3780eef4ff99ac916f4b12dd575613cb9621bc5fa0980ed9a4ec8aade56c;
 0x2abbef481b368ca971e74dae04691439f845c10d1d57894269b275c196aaf9ee;
 0xf24324f82d68231dd9dd6f8c05f52d8eacb9ae01ccb1f3b30228222377d0e53;
 0x267617317f5146654295ef602b91250db010b45f4724ce7ec54884b29c404597;
 0x157f9e2f737498821bb01ab1001d715eb2c336dbdfcb867becf0a2bb6490c06;
 0xda7bec0cb98d337a52cdf0d66e8a97f24229671346848a552eac14c8a30c702;
 0x15fc820ef53302dca709f3ee480ba1371c91ade79f9f587fc7878d731c0596d1;
 0x845715adfca35c3e8057c0fcd4ce6a6128d0e8117d88f551d3ec6587d0f4296;
 0x422f744e2b736096bc8775a3906893a64cda874aa4457d2b442a9a771956d0f;
 0x15f421550bf6639d46ab5779fd26b1e11618e0497e05cc85c608b00faf3382a1;
 0x4f17cad2ba0ef6f8602e93f5b988d5f357e61ae5f3ec35066fcb4d1a7b720c8;
 0x1732ef5660d84ae50ca09c021eb0d77f1fb2a00cc7905b2479588c49c488673f;
 0x29b12501fa79e08bc25259985f730cdce9e2434192ec826e0f4b9d568bd351b2;
 0x207c8006aa78fc40a84db40ad82142d0f61b28dedf10e2201d815cf4f6274590;
 0xa25704ce4cb74a94d7bdcbdb5fa268abd589d88fe45b2f2c82f90326cd049a8;
 0x11211f3a71af30a00101c423ea40a9585a9eec75687725d7ee289f428f40efb2;
 0xe01e8bbf5ee611471380ce8bb8c34b932ac76e96faabcb7ad20be96187c2fa7;
 0x1c894a1430513df35523e22e4fe9f410a43de91dac73ae338c772fef1fb74363;
 0x2bee349392dfa0b5b4a08ee58ef54f002e06ab26834f94843d48ff0ced526d5c;
 0x84a60c1d70887d9f2d23a8c7713332829eb41cf3181149fb223b7abff4d7f0;
 0x23a4506c90c07f3ae176a0e2bf67f57f88d45898c97bcdebc8a8263ab602c7c5;
 0x1ab66896a1df95c0208b990e2c634707394a1110cb314bb82e0a2e2b4958aee7;
 0x2c6b842aabeb84ede49e559d8eea658293ff4bba9325b5a1d4cb649d317f4616;
 0x16321af63871328c2b88f46df432be9aa14b008b93f85cd971dd986dc16d2e35;
 0x13d647208d3dbcc9df10d1ee35b598e6c8ed85608f81ba6953088e7bc6db73ec;
 0x1c6aeda9e0fa69f5143e6f22e747b7e74e692b9254d55c61b890470cbd7f06b;
 0x287d74a5fa03a4ed65bd4a7c6daf033418f474c7dd9b957bf2b17965cac024b1;
 0x27a4327beb0b3e0cc219805b3f05e854bedcda1b7c93f11691ffd6bb76a5d0e9;
 0x271a03a000bf412e7fcfe8918baa689c6682417803f5b302f1ae30695c8e6770;
 0x1a4436200e4d0be65d2f0f4000157c957fee515e591c8b54bcd46c02d599235f;
 0x1bce9394a5dad0a4cee35b8e99b4b3c0cee058b8ae4fde301c3145a5a7a94c76;
 0x2b1b4ff2bc186b7dda9c3e05dd4932f38e6a7c04b0af0839441a5972125dc902;
 0x13c87d0e4bfa493cc2a197b1c9db49426979adfee4714048d865d4f6e95f699b;
 0xe861496d1b54e3530aa0dc64c6683ec0d01a4e3d1c69d50f4d6720b981ccd62;
 0xdb63bd46e06bcaffbcb03e5dd3faa88f26a0aaa728198c5d09a483fc4197100;
 0x2f8fca3a44bf9ea99452e1a055886af7c95850b716222ad89f0219054d45db87;
 0x5b7bb3e5a4e2946395d1d6ddd541bd9c166cfa1956d161713e7e350f5947d73;
 0x20e4e6c47a68be3175fcf5a7a3f8bf7b3b2198203b4552ed620b9593b66e5483;
 0x154a2a02379c7695ba4783e15d10a147560ee2b4d03a04a0b901dade72df4862;
 0x156f02cab5fb0e7e6fa0c743bfd64716e15e5e50e12774805b1c74dea89c5345;
 0x1d258218556d0152f0a3be042b1bd146774a616ffc7e7313e9519b5041318912;
 0x160a5da355d469412e5535804f99dfb8fa839d7ce2cb7afa50c1fd036219f4e8;
 0x1693c0c96b95f7037faf6a18289814c68237870edc94a72c883eb2c751d5ec43;
 0x2b0df0f463f69ca206ad5c4a115d1a6a83d5e0ac328bd468f35826a968d5708b;
 0x19cad23c14a9bed0e159f250bec8655c07149bba04161fe002f76954ca192b60;
 0x25857eae6be307b653c36a4090a3963d60842410e04c5722dfede28fa645f54e;
 0x29ac9714955b7a9c94e7959efbeba17c04839ad7bbabdc643b9840ae43155f72;
 0x2e637dbad876dd52a7284db266593aa85b2020bf340802625e74f45a2cdf962d;
 0x468d89779fadedbdb4f0093858113c5060321aaaf082a53d44fc74c65e7ee84;
 0x914cefd51a2822efcf8629d57eb5b6ec7195a90087762ec8814f14bde647522;
 0x120a9d3cbca58b917f4e61117c7fe2190ba6d238ce374949778c40a6d176707d;
 0x1cf1c75a1b2ca09ac655215cb308b39ecef96d746ecbc34b37583bd8e0480d5e;
 0x511cadc2d431769a953d0d2355cdd3d8c13dca7a6c5b19005bcbf3c5bcf7770;
 0x1e2aac063f4303e24a2a44b1bed5688a43279356dc78a772e4dcfad0562e5dd1;
 0x172a396d41cfb2b1241e096aa41f3a4788303d8824d5496871e03cb9590f89ba;
 0xbde068237cc41aadb7ac718d4c6b916cb7f35fb399ebb2515307e6004969e2e;
 0x1522d1f8f0cb9214b3f6602d9f867bd2ae07a8fa77aefbc3153af4d350d933ee;
 0x157d56053aca2c4cd30f7ba34e5d41b8a636961ef78c1dea1759dceaccd1ed69;
 0x10aff8c0fa2f25f58a299e22c732f1b901616f6e4bc6f63af79bb93d45fc188e;
 0xa9557d37fbb35ce046f2df3d8bd9cfccedf85eef2549843da7f2c2e36d2bde4;
 0x75029d8351a4949170136de66c179a8d6ee6b56b89598af199528d78e8d2c59;
 0x2aa767c911398696b2302fe15ad33ef35c6c97618e672f837aa4fd42930355cf;
 0x14d99c7417a329ff62d32828421e1b8a031d30242b285c86a4f63795e376623;
 0x186e1b78089467478310c35eca9d2058c0a8bb8e2ea5c324f1314e478a12894e;
 0x2ca9306ef62dfb1ad58244ac5bd70b0bc84f86368f6c9bd4e15ddaed432e9838;
 0x17630d6307628585661eaaee9438c67160f7eaf6d03d3ca6364d4adda49bdf27;
 0x21187c1dffae74340a488cdf08ce322226544816780af016098d8c39c7e72e31;
 0x1db210b93c320a18bab1769aee63276bd99ac89035b0da327cd06cb70854aca;
 0x18bb6f89805c1bd59d8d7ad109d5f26b4d18813f71cf3aaba26ee896709404e1;
 0x9c0a6c2d79cc06023f3f43196c9b8a60a55716d2c7ca095d849a5d67ff6fe98;
 0xbe6b7d6cfed9528f4d1ae306f3138306ea7c81cbf903e9b884eab5084dc4c16;
 0x16fc7c808552b1362d8a739bfdf6c6dbe70b00611780fb4818d424d5e017ed5c;
 0xf31a91e6db75df904be6bb14fe7271429e5787f9a918d1cb128ad76ac948836;
 0x230a66ce24feddd45fcfcb5ca7e4efb12461a7c0a0b673a73b252925d310d488;
 0x5ed3707e7ad3478ae508126cba274743cfe8685b46153f6da3a0b4b83ea92d0;
 0x465c370db40b8f14b4f6ef913550c11bcb2839ac707e2fe9a9c31b43cf8d938;
 0x85f42b894873a7451a60fec0539f9ff8b2e0a495e43db7b95c3a75c57c20ed;
 0x2e8b3ae9368c9c1f1542ae734cd995869f81aac64902fb1d3597022da08f9938;
 0x161485d4fa8620e6fd09b088159c4e223155019bfe9eae28f9870ff19ccff314;
 0xb6e400339e5e76c1d200fd27884599d473dd98fade9e648940833ea32b75416;
 0x261ee31fad47c0db7bc046f718437ee518fe73ec92c1e203155d8f284d44b310;
 0x4e106089b776d01a284b84adcddba4bf0ee56c2c85ac584b4d938f45023252e;
 0x4b14e89f42287dee36142a17718f7615789c9f9623b534afeffcf9c7e26449f;
 0x1d55915b20b60534f1d89f2f8c49568123fcb4c6d9197373e54662e7d9eb83b0;
 0xbf04f5b7d178a77ee32fe543be468e1c89aa457a2f4d6699aea743f80494b8;
 0x1bb1f31e887647cb45b8bc5be185e206e91accf86e5ce5bc1b39af12f857ea3e;
 0x26f0b4214212ea8030aba75b2eb699e84adf24bc4b856a3522b82c1edca87e9d;
 0x1ad7e1c6feade269c076b67239b316e7cfc194b036b5a53f9207f457599c5fca;
 0x11947cedad859f02ffb4b99e8108512fa325224ad7e1bcf82b28c61a89840035;
 0x1ef4f0330d6144228ef6cc36eda0d179384c4dc1858c95de12d070d11c43348c;
 0x1031abebb0216be506c04a6514d471f18b0dc1b5a9b616c87a465b689cd1336d;
 0x23f97eb680f5a13b3e8daae572abe2ac0dd92eaab473002f0708e6b6084b2df8;
 0x289b2ba2e3c8f665b94a4d73b5bdf7d6687468aaa84ef7f6e04fe123659e41b2;
 0xd40f713b31b2d041d3e01e2504af10020bfc45bd5bbde4f4b133f63536090b5;
 0x29204d73ce84b3fbbe047c74997ee799f92923cd16ece1eb6275c8b71659f149;
 0x23cd14b50f4129fa56263fefbe7475e51c85f67cdf38a9ae7637ad04ad644c6a;
 0x1603887bc7e6956ae4ff5b9f4423b2293ab52b69b2ec021acb90bb6da8dc3883;
 0x2137d99c24145e52ead0129bb220690c5ff8f6dbff755c8467054b645c74b0f9;
 0x1f3d6d1349096a8e0594443a487386f9f51b2fc366e910a9952d4f0b3dbec414;
 0x2148e1aab3e9c82a297d04af8191e2b05cec71b0cd6b8b4e079061dd00f01a00;
 0x17fb0721b3375406028ab6f04882a202e6801cbbbb50badcbd5d760d59e60c54;
 0x44f8ade334554cd610743aababa1196e00106e754cff8b088ac69a273ed074d;
 0x2e10e74d30679661fc3ac960b7c967cbc50029d2ea463ab8ef55633cc5405243;
 0x1e44030832526ce32d540c5cdd2def7f900509bc8019fec5e38848b3576dba8e;
 0x2c17bd7af463d52d3fd7e8723d11078369561ca3c4ece48f1298adabe7c822e0].
(* poseidon_bn128_constants_opt.rs:2393-2453 *)
Definition bn_M7 : list (list Z) := [[0x2abd9e16b7b48289aa19cdfec726fa3fa15cc1625102ae511bca45f39d337e9d;
 0x1fe9feb5c7f7c7a426bff032cd6a3158278b6c6b2cc57a871213fcafd6427989;
 0xcdb2db9e4f9d732d217c5e3114821165d49e5a2d41556bcd53d0c4d433224c;
 0x9664216ca565c1a44fc2b98347ea8b36904b3877f2159dcc999895adeb4d70b;
 0x1463f51d4a4cb1eba16dbc115566aa48fe77b43c244c9988a3c658d2f56493d6;
 0x214e41788bd2b990347c7f2a8f47612d4dfceb1a1e6da38165873df66ce51f59;
 0x548541724f64e20128260899abe8fbcdff184a1957a9385fb715923bf0fc79d];
 [0x1b4bc5885d1cfc8eb691875300db5a0c7362ae381898acaf8b63cad04ecb36c6;
 0xcc7eabb154aa7955eac47a19f6437a2b8dec0fe9e5686150ff6e88b1a7b4bc4;
 0x12f3bb29c972793182123f5c49306e16a3a787c4bcd9c798a131b70856d1cbe;
 0x111fd8dfce2bd3b7ba0cfa93e20fb685abf76d77305857b8df30914e4849ecef;
 0x16afd8f4c39038b8006a59d292aea84731c0f83832a61b82250ed90118e8fec2;
 0x3fba82d3f783620873da94e9f4e84c8b529d76f54e4b5d7d4805272af9b9775;
 0x21c5e25a6991364e59a205e5b01c811deeb095680a72928369cfd2de71b14f98];
 [0x8a72fbb55dde3e93c5818571a424a54953695029eedbcf91eaeb012751c7f83;
 0x393efd96399aa0726ef9af79be8b6c715e429906ca0d15076b5a990fea75ace;
 0xbba9006404c5ede82b527677daf444ed43fd1e0dbdc5528dd2cd1f17ad73481;
 0x19f53c0a592b3ea93497a511e56f66753598265b1ab6774da48eec04e4d93426;
 0x2296361f3bf154efbab996921936e9b1dff8352711f958638172055333e07579;
 0x66782fe3e869de2cebd7ebbf60fb435785329dfb12ad9bd1b4e46ed36289511;
 0x11c5cc53f6338c825817aff7792a2efbce8fff171300d41455a2edac37663d02];
 [0xf95359a1f6845d4921892f83e500bbb1b3d3763d8fc762400af039b0abb83f5;
 0x871233835b752ea030cf8a4f43771296eeb33f697d1b0825db47d39ac9e5955;
 0x17e4e73bf701f88d219acf1ca6390cc1e17c9f84b1713820837ca070be84a2dc;
 0x19b683c39d3b002fc3523b7bee5a60148b1dbdf18dd1c318e6a541e8cf66a174;
 0x1c3160ebaeb10f809f69843cf8d5bbaca198d1f8e3439be29beb92d909ec891c;
 0x1c5cd6b23ef336be01efa37a27e6b7aae5d1643fceeb212cdff51588835fb537;
 0x27a0949fdc9f10495c4ee7214aa0edd2ad8eef68f577da8b96f9d87a39504bf9];
 [0x16f01751ce985328afde34d81619defb43e6c7b5dadf52d0f82472fbce7770d9;
 0x1a02798f047a51baaea34fcfb26ca6afe96a5fad1d2db4270497b6e6504891cb;
 0x234b8a077ef52b53a343b8da5b20cc358ad60760dd60276d485015f73d53d207;
 0x2547113a818779f13e3448719c7ef100b8036bb3e882dd5e6456c35311c1bd5b;
 0x94c66bdcff54382cd9213abe43312edb5b4d414c6e09acca24912a7635404c6;
 0x2f3b4bf0f105f88e27248af094e29feed9ff3fad9a794e15830bd2b311539453;
 0x1c7fc68f3fbde4a23c455ef0d0dbce0ce556a0194e6d552c0455cbb5b0c230e2];
 [0x1c391626328457fcafa629f3e6d33e2555e8d885e3c07cecc8af1f4d56596417;
 0x55665d76df3cd0fcb713c234ea79d06a31d6e3e4c3bcc657dba4c664d5a0da0;
 0x2dc3fd77394b7b5ac1cbd1b46e6ded5b835d7217a4c50a487ae9a35a7fd45d9d;
 0xcf148f8045cdbe7bb1013f72ebd4126a3e35cba9a970441ba8d5bc76943b0b;
 0x2e883bd408c4c826d004ff777d7c0938434ab5bb84f3420e5d94b853b1746f89;
 0x2f4085eaa9f80a69b739fc23f2fe4057f64729b311783fcfab3a0a36fc1ff432;
 0x11d0f56fc00e7d85b3a2939fd33991dc8abc1ced0c3f3c530cbfb4500d63de9c];
 [0x970f671b9ba35e3e3c642d1e0b8032023ed5bac91c2c1056f03965a42c5297;
 0x26ee9691a638edc7c91887e302fc55e8e7758286a44845ad88fd7de3bb1052c1;
 0x1668477640fab14c72b1c16ff0192e48cf882f12276bd12f97f82c6ee2e61e48;
 0x3008421eed767a093322a09c3733973a038168cb28cd2e1f709076c00b869599;
 0x228af6d425e91a783dd18fd89a6b38bda053f2f23c094b875f27cb3abba2030b;
 0x2363603349e94f520fa1f98fe2507f6aae361934078aa59a16214c088185638b;
 0x1b2e9d20d9b55deb048cabe1636f0e96363bec886679cbd91f332fb2bade44f]].
(* poseidon_bn128_constants_opt.rs:4515-4575 *)
Definition bn_P7 : list (list Z) := [[0x2abd9e16b7b48289aa19cdfec726fa3fa15cc1625102ae511bca45f39d337e9d;
 0x90df29b70c5a783521503f92a45753c8bca03a74627a24c44dbca6eca32ac42;
 0x11a48e9fa064121f52297162fd169e051d154a0e203583624a16c73534430b9b;
 0x1636fd9a0457ce75aede0821e036773e39c37adf6fedcc7b2cdd72254e2ec7cc;
 0x2e64b2e0bd6fb47559f585b63e8dd15b430058a63f2076636052efccdea98ec6;
 0x2cb7863886cc4ee1640210d29a4a329d93a040ed45f2744c25731c8fcd15f0f8;
 0xf3212046ef984438989c355db0984f93ea4bf99de1700ee0185886e81f2ef43];
 [0x1b4bc5885d1cfc8eb691875300db5a0c7362ae381898acaf8b63cad04ecb36c6;
 0x2c628e21a22008733e14f81e953a50072ac800560554df9e97971a56c509222b;
 0x1cb1d2eca719de8ea352adccabcdd100c4fddbd380871e2190e33390b8bab1ef;
 0x6a0175e0d8aa3e1b994a177af69a40bdf6dfae09c41d2fb3d8c599c76e7f07a;
 0x5fc6589a1d1d35b2473c61ac293c6d6cbe24fab12a9086c0aee1f8d1a28a883;
 0x26342b8b16928328123d727014822f00f4fbde2cd45046f5dbb6b986edfeb632;
 0xd7565999ffac123203ee5a0699bd4a2f4c491fcfe05676f928694717e572878];
 [0x8a72fbb55dde3e93c5818571a424a54953695029eedbcf91eaeb012751c7f83;
 0x1567d8f8711949c036030ef808665350cfe9b648f13c675379aedd83d9b83767;
 0xc9037b1b5cb3451595b4f8a1ca80c3d72ceb93d6d58dfe8eba02e88d211b281;
 0x183d06dae1a0ce53171aa09f25f25ee397263dbad5306dd1b7428872baabd5f;
 0x7da96bbf5fc4458741de810178e19a89631a95f2e0cd7e5f2783cd237f3d911;
 0x1efe4b3bfbb320e15ac79fa9abd46e4a19b21f39bc40143351321f658f6cfe7c;
 0x900505bde5ee2d55f5baa932e38805bd914afbcf3fc854219cf41d147b89db9];
 [0xf95359a1f6845d4921892f83e500bbb1b3d3763d8fc762400af039b0abb83f5;
 0x27630d326f12eed19ada60a1f6c496680425b457f42e8999f49676af0b637a6c;
 0x26920194603a11727525c5e7b267ab6580abe2a7912789eea077a55f7ec3204;
 0x10e5dd7a0862c4aba24ece684e502d3d6132a99d906908b20eba4f3466812e42;
 0x2d30f6e371ba6fa64853fca459d0d6e0edf941c3e8177ad5d333d4eaecd7dc7c;
 0x7ed952f7c3370e03880bfca6348ab2ad35bbdf9b7e9c266e7885b580edd59fd;
 0x25b7a438b7dac4f0b36183f18766ce503f69d6c1d9cd29b986d7d2b8b44be433];
 [0x16f01751ce985328afde34d81619defb43e6c7b5dadf52d0f82472fbce7770d9;
 0x37e3c16dbd340ff80f49ee4f7dbe1098b474176a92b7a6964a63f2fbb8acfa;
 0x2cf7810985ed56d898150ddcbd42edcfab6442f0d0a7f637693f676300c85c5;
 0x2595dfbda733d0477a01cb6693b93eb4cb711bef3784b5fc9e17f1b342eb15d4;
 0x7d9eb804f0a999ec586c58164da8467a481c1975e27b951f6f18411a7440cd8;
 0x56b8df70be9577f94b6fc2a3a94f736d9c7b9de29134ff3a524e406e3143280;
 0x258a0dbb961fc61bffd39764fe6d3c687a1061b59ad00fe85d1c18594b7e7270];
 [0x1c391626328457fcafa629f3e6d33e2555e8d885e3c07cecc8af1f4d56596417;
 0x1814234ad66f16a36711c9d2779c1358ef58f650cab5cfd95a0678af36224c98;
 0x25965b4db95bc7104bffcc6ed99af5cf5328012a3a1a35cdcbcae4ed2470175a;
 0x3090eb08e04a2d235c164b71a56dd730c6b95e5a2613d39cfd932b90af23ad0;
 0xaca5e46d797e1748aa438d2e2967569992dfcd41997be143c3ebd2a823b7660;
 0x18e6cc7c6ba50e61933de0f615fd4458d39a6c34c2f241a4cb78dab9dd1b4283;
 0x216fe55a6f2e8daa2523b65eda5367ad3a3a6c55856c5447f398a280e57d6535];
 [0x970f671b9ba35e3e3c642d1e0b8032023ed5bac91c2c1056f03965a42c5297;
 0x1bfb7975cfa9022d9bea2acafbd020c85cd3f1091794d28413510f2d723ffdb3;
 0x20c27ab9c365c5d2de660b9b31d4a406907c506b5488787bbe2de181b76e6a7c;
 0x28feb3ed6c194200a579ff340040be172171c1f7980e63214a0b3f7603d68a02;
 0x100d8a1a7ff31b30725190584c830b15c0cc5a41d9d530ed57c0bab464368b5d;
 0x791d241f4743deb4afd41d9989448220d5a1d101bd96db5ab2968b981aad486;
 0x1749c39995115eef14e1bcb1ccd4cdfc5c928ff14e078b38f5af326ed6b1e099]].
(* poseidon_bn128_constants_opt.rs:8551-9369 *)
Definition bn_S7 : list Z := [0x2abd9e16b7b48289aa19cdfec726fa3fa15cc1625102ae511bca45f39d337e9d;
 0x277ac8a3178a356b9072bb7b469ccd57a0a63dbf08fd0dd7356008d5307bb3e6;
 0x24903bdf5d3968a8e49c6bfafc0e28d539ec1e2756e69301a8e38dab87c6c402;
 0x14e025a7131c3bc8bd2d48508aa4f791c8ebd10688d7e5566a41fa0c149b8602;
 0x2e41c7e320ecfc1d86df765fd7bf43ed2b6bf27ab8b7c74174ed61d57905c555;
 0x11bb3cde82e89bb0041907d66de91029b35a9c8c90ea44de1661ea2ace917451;
 0xa7460b280828af7d0a5bf4065b2b9640a9cf83d19899cca0171ff6abcb49751;
 0x234be66b59a16a323cb35d6516c5a92f4997b76e14e656a8c41f29fc94925b0e;
 0x27c512cd854e483667792d785ed1ed7e30569dbe12fc3fcb0c804110c937adff;
 0x1532821b842df3a4e64577b7c8917219c86fa82e68857a1a5be4056e8763a864;
 0x1ec15f1ce8c3cd648f325d92ace903521d7b0f668a01c6d2b92b43e35b5ac58b;
 0x234748a5e415d7b5cd0b75b712675e72e95b1e02ce6f48d299d5a3a489905ea5;
 0x14037feed35ba091ce3dbb4e6033098d07a3cc512e981a493c0788e3827a6694;
 0x2abd9e16b7b48289aa19cdfec726fa3fa15cc1625102ae511bca45f39d337e9d;
 0xa7c49a32b5a05a6d74faaded50d303c066ec843a10ec59dc90cbd37ba4b1b6b;
 0x7fe2a4ab68b94f006bc1ed36af445905c8d234d308d57011dc1d393e6bcce8a;
 0x15b26f61d51ae17017b1b9d1c9034a51083f25b33f474c96bca5bf47e8a658f0;
 0x1a9c3ed5b8f524e8e2de1678002e73c63ebeb3606fffc29ae527fb94c60f5f78;
 0x153aafcf4923742708efe169c490514516a223537245aca3ea205df20b8b5ccf;
 0x239cbec4c84afc21975a40e29610d83c1d71a378cc58995e505def01cc6bc872;
 0x1edb2bf1ce76a49c4844b7e5692018b524b30c1660a2e003b5768787d7af6d32;
 0x222778dc5bf834f9320f037f4847ce62a2ae63be8cb846a5e10a3c2eb2ff22ee;
 0x17c2ef46844a5365828904ac73e5114f9bc2833cf35f65adde116491bc86e0c0;
 0x2fff9c9428727c51c6bd6c657e31314706237633e5cb78ae244d5d4c3ace4839;
 0x1d188182ea443a5a5cea9823f3eee70a2c1e18459e4305ef862666d16236b0b8;
 0x194dfe2339f7aa042818a43f4c6d3b5b2fadf648ba0dc219e56ec7f849ec7e5d;
 0x2abd9e16b7b48289aa19cdfec726fa3fa15cc1625102ae511bca45f39d337e9d;
 0x1c7aa6d64a120d657fbeb04c84017166427d0f02f0406c0674899118aeb3a1c8;
 0x1dc18887cff4545b07d122b9086f80b9c464ee5aaf98ebbee8a648df3b74551d;
 0x27c28329d9f8519a1ad9973cbc710635e5cd01ff884e1c113cca7b35742578d9;
 0x289ce154bb02ab338ede3bdf7b2efe8de1fe22259477475987386544f3eb5cb8;
 0x2257e368b26697c9ae1bed7b5cae11efb9d48138dae5b7b3c499a37cde286d03;
 0x1bc9d5e7820a13f9f045f7b544abb2e4b954a8d9b6d38f198efe3275d9d7edd9;
 0x18d112c5305a06c15faf556d58b84ddc492912505da27bc8500fbd32e4df9c39;
 0x2c63e80087f924919d20067f050b7d7edbdaae2f3018fef6f8cdace9768faa75;
 0x877b395faf50d5d108121e29b7ca64c6408dbc08f173278ebf6de8b9685e113;
 0x40cdf2e7828e66a99121262b33701cc96696849e5532f492486d69b2779e9e4;
 0x16e80a1f3fe9b828493e83d1a31428b1c586b3dd54d735eedd257930a2f539b;
 0x994a923eee5e6fd6a4caa317c6926ff4beb82c3dfe033f37433d31898a60f20;
 0x2abd9e16b7b48289aa19cdfec726fa3fa15cc1625102ae511bca45f39d337e9d;
 0x2060946803f18c085b6fde5a3d8750d80f9b21ed391e27e1c7bed180d708e87e;
 0x24fa5c0683c2eb83b0864853cded9d57d38f33fae496818450e2f6c49968dcd7;
 0x162824e200bf52b73914219f02ddc59785407c558eb4dd72ff9b11921a351eb;
 0x1edb37284aaca008c1703ddea2da4eb79521cc4cdcb7692ae344be2b880f574f;
 0x2189adace1c5a701dfa9c5354cefcd8204c60095f5b8568232dd01acb3c09688;
 0x19f1b2d64e3cddcf28e7187f16f3a90c93975e2569625ac689e3878b2de7c778;
 0xc62cf98668e5178bb9b6b261f36e1c8f176f190d372921c9b46f824db8c6190;
 0x16ef695c32d05c8c43431f284a33a0138455d93408ca2f742944d71eee85aba6;
 0x1916a7ff07956db69d712449d024d8272e2d9fbe9428d6562c503b99337b1c14;
 0x155303d79a49e28947744f334366acd9454fca21261d32bddc76ce6086e8f1aa;
 0x21dd4756d2217bdbb9b439bc12e5daf5a8661b1effd889c642cb49c4839cd533;
 0x197232e52cfe9adf15394e38dc30548d7cf495c7499bcdd993c2df59993d72a5;
 0x2abd9e16b7b48289aa19cdfec726fa3fa15cc1625102ae511bca45f39d337e9d;
 0x2f1786e4f7d8187788ae6fc25c6818d2e7fb34a8896414ac9f6b958de481eb0d;
 0x7b914cb16d817387d79ee23fe9975ec91fed24d0e163dbcb5418d96b504c2ff;
 0x1958452705af91d4b3be5bbaba856067cae00977353897c5ac0d070f90e34ba8;
 0x20f47ed0ffd3fa2dd8dbfd9d0daa514b0d72d270d1327e33840cf178b27637e5;
 0x2bdcc2280fe50acaa851536e7432f37c888a6507168a4b79e2578d7372f5db82;
 0x100ca23f8d8ebcf656d1fa5cb225932b62772fe53e2c5650109e71231c3a9b0b;
 0x1d359baef3547113637ed1d8e44c89166eb4154d190d38a2c6d47afe5cc12e1;
 0xa78ae4732461eba1b90fc18b100cad3712d8b684324dd57343cc127b005a3bb;
 0x1a843ce91e265e4b6cf8ac90c3454584d4d481813247df111241cb4409b26b2d;
 0x140c4ee1c78bf8555602a74eccc3c3f71e050a5deab03ccde1d8431c151bc3b;
 0x7696859ae6cbcd413e8a035a9191cda79f3d04e6c3d18658434d0555824e4fc;
 0x2e7f9004dc09157cebb4e42884622e0307f85fe2c37fa7ad2674b0981b2c0d32;
 0x2abd9e16b7b48289aa19cdfec726fa3fa15cc1625102ae511bca45f39d337e9d;
 0x17607febb988532e6c79c307d903056a2266735b7423da83843f70723f09a5bf;
 0x2c02579472877870c8c3457b6d3b284eed6cac0d43e93c38af218961a9ec3ee5;
 0x2b24eeb2617860189e832b5a50bd17938b2788858e58d9ea9bbcb7ea175ea012;
 0x18c375a125854f8fbf30b0a138ccb4c771dbcff64c77d1c62b79d70a13e307f7;
 0x7251d3e863183333fdbe9dba4f3abb21777555ec7f996db96352311cd9fc784;
 0x2adb341301b3948dc700e495384dcc124d5371ec6163615ee7263009fbfef1da;
 0x1472cc421bd8fa9a7efb991ea065ec1c822b44fe601640f46995c3f10f1323c3;
 0x2c3a91912dc2c2a792df5e43134bc6d7e582f822994a5c2a6352e789997f9258;
 0x15e8c106e6ea3898a09e7660ec87c5fb217270ee9a8ebb1d052e64f3dfb155d;
 0x196b68215343e220781a52bb0a324e4ca765394d2f3201a769bebbd931dbd2ed;
 0x2ea4a2d5188e98ec570e50b70d0303ede5207bee762ee8932a466bdf891a333f;
 0xfbf65aa42b0d900ec78b68de4b2041140fc85fa3458303276d99826e97a2783;
 0x2abd9e16b7b48289aa19cdfec726fa3fa15cc1625102ae511bca45f39d337e9d;
 0x2d93d238704becd76c0220fc95afa0783f9695075c5d98b363f91cd249c47a22;
 0x1011608ec77a11a0ce8b8b1b36ce08de4f93af8682fa026b87d8a2795b71391b;
 0x108c04095f95a9fcbbd038c079842940d8105c509c729129f7cea1c5e968e194;
 0x27bab26eeabbce153dd52489db2fade373a936ac52383034ab82a9e252381e73;
 0xd2611e73e27ed17349dd52e13a90adec9830a5e2c7115d8823d23688ba4e570;
 0x1cb4e6780cd70a0bcb4662edfe8bb829e146a62c4461c271ff1a0d8db5c1974d;
 0x1d429b1257e514fae54614b4648d627169928dd3a496a3d021d8dd7b2a1cbfb6;
 0x919d557a82cd7294d666137090c7348da53c3b92bfa3346bf14903a12e5ffc0;
 0x1b99c14cb08972b58f1e7216933e31e2e67caf29f8e6e998fe2b1c30ecbc9473;
 0xf0435abfab0c4e0ffb1a687de5cc0ce3fed74cf9bb2b559b569a552e8ec86d9;
 0x99366a2b727e153c4e338c7cff84efbedfaf7dbf4c7904854574f75f3d8e848;
 0x187b41d7da085759b71c2028e359907408319e8c6ad842c79bb202ecb419be5f;
 0x2abd9e16b7b48289aa19cdfec726fa3fa15cc1625102ae511bca45f39d337e9d;
 0xf8adabe145a57461fe9a583655046a75a03785a0a2942221ae2000664936e3b;
 0x21b8878c75b423cb1f80e0b574b3f62d28785663aa6b4e0caa3043a693bef6c2;
 0x1dec99dbe933ff6d1c4b6285f8c68771b3ee297afbb5c934aa2874765f64d602;
 0x2d23ed96c51ebc9c51489f7c87de4fa151cd8378cbbc701542f54bd4f4d808;
 0xabfef9fb01611d86e6ae1c1ce2d3febf41378ba90a38f11166b097187272e88;
 0x28f60239d945991b837eaeb4693d496be520241c8b739d3f21c7b838ee0f946d;
 0x18ad1fe91d4530ef15ee77e9ff06e2d3b05564aa44613bef3b191f6b12e1bd83;
 0x53844fdd99071115909fc518f92c7d0d7ee91beb16180cf9bd158d33c8679cc;
 0x28f997134ae9a3be6b79f6f3257aff2498774d1bb18f553b229f70076c979ddf;
 0x5dd57491f096cf44399e477bd78c20fd872d357f5d1d210873d01d3a014bfbf;
 0x1f1a859e7cd1cc205ba1a1b3cc2bf04e0b24d32a62dbed89e59e2113d54e0b37;
 0x75f98af212f11e1de886197216bd78258bb77287937f0af8e464f916d7ce5f2;
 0x2abd9e16b7b48289aa19cdfec726fa3fa15cc1625102ae511bca45f39d337e9d;
 0x128d5ad7a08858a2ed8c161997ed55c8ca8ff495cd27ea475983d1715cc602d3;
 0x75c499dc0dfb0ce2005e7d13c1861e5f375e03bcf06951de3239d4b56f7868e;
 0x2917faec22c04d8b879d4490a8ae7a9d9cf7f3fcdd33634aabe189b50710f87d;
 0x1a86eef4ec1b75a75d97e62178663f995cf6fdf3913595632105284bce7cc346;
 0x65be02d94e4417edcba4b6b68675b107a25462092e90e7ea887af7870c0ffc0;
 0x2a1d799daf1e300abeb7f5a66264360c7984ef52c9b153f15411f9c62ac84d87;
 0x17c036c19ef8085449f760a6365e814823f270ba4a5e41d2ce4ae1c653f087dd;
 0x2151cb617d9f323ca37ce71d5c77ae83c8490057b9cbe8c17f150945893382bc;
 0x24624a8c4bf96cf50401f7361f74ce162c47ac803ed9424b7bbe4d7465d9f20d;
 0x2c01122a63dbde586507877763b572ccfdb59f2055ff15ef205fa8487f82a3a1;
 0x17a88764e660e91940993b5efc7d317ca4d0e28d7dc164f6ab6e8c0fd2bd111b;
 0x2287b5e929e98ac38199873b142845c015bb20880cd9a1d9316a7027a9b2d208;
 0x2abd9e16b7b48289aa19cdfec726fa3fa15cc1625102ae511bca45f39d337e9d;
 0x25527f081eab2b3258ed36e0a72ebbfbcd874e81c49836faa218b94c0a330b87;
 0x186169de0e37c01f31821e0909bc4c7bec2129acf9a34948cf7a8ca58c9b57f9;
 0x6d5d287a7a8d09650979fd72764614e0384a22972d86d191d1255c999d3daa5;
 0x2c1f7628e8aaaee261c58c8966f5cc90e7aeb1dda64d590228e61de098e4ecf8;
 0x1c3761c8c7a1ee1f98871ebfaf81b0b89a5bd53a69966681681bb1352f1d4fa1;
 0x14d1774293d8bb21421fba59295456c98e3e9afd0c9858d6aef305318707e365;
 0x1df2d2c614e4fe2a6cae058be1dc9e56ce12171c7c3bc4b9d1e76b1916458f72;
 0xf27fd9322adc74859d8b58e4bc2595b276061b606acce303f2a90ae404beb2b;
 0xa2aeb992439b6e372a606b46e95bd4b52c2072e6fb28c0689e84b5f444f7a99;
 0x23e0b17792144b002252bc0490e7640a3d47784e77db53af09de2f3dd650e9b7;
 0x2aec9631493082d844e77232cd2202224fc38b2eb0d87e7e5e62c11c5af5d006;
 0x131847cf279637a5a337815fa4f40d51251f6e0174e59c5ff4ac4cb35e2f21fa;
 0x2abd9e16b7b48289aa19cdfec726fa3fa15cc1625102ae511bca45f39d337e9d;
 0x1c8f5a7ebf52e4504d205b2b92ef4a87c99bf55fed83fe42edf01645332dcec8;
 0x1eed962a391acaa8a59d90d324a9ad8447d898f4b516db4a289a4bc0c565fdcb;
 0x2b7c65f02b600d4cb64a49b484840ebb11ed7e99a43db9113ed92bc07d2ac4e7;
 0x2b21e821c34c25f6fe3b027b3f9877d0966ee34e7224c738f0e1f454ae3e6d51;
 0x2331843ec8156532e5fc129b95d129546fe5ff9928bce0b17964a9fa4d8d16ab;
 0x22dfdad5cbedc015829fa14df6356c60037761a018d0cf78e13d3805464273ac;
 0x292c701ad0a3bf427a33e1bfcd073edd2cb8b5e6e949906e6efa9356b471cd62;
 0x253d7f1f0d16d4a21b0d14d04b927f0ad96d348e78a7e36107a9c2481f51c587;
 0x12f89c0d808f729c196c25f570d2027925fa37a17f07d9cd86b366793b5b89ca;
 0x28739fec5ce7338db7feb9b2996877e00c4c5d6f1587f24d5d165672d727d4b7;
 0x2ae7492c4a9864de31330c131c06f9de5d50bbfa4b6ee21132068d43e00d87d6;
 0x22d24c6c5b0ddfc162fe02b69859138f2428a54ee04d51b7d28db3dd1de5fe75;
 0x2abd9e16b7b48289aa19cdfec726fa3fa15cc1625102ae511bca45f39d337e9d;
 0xce556d3d5727d4e62e2716588f873bd595b1c1a31499dacd96b724c4b7a0848;
 0x2e9e730ca4be19d180bc945c9284a0ac19a2d1b6523bb1c0ba4c105625e428f2;
 0x662d03f6ae59288dfe205ca54c24f7f33615c42212e9e759bdc519a37573214;
 0x130fb7df8e39fffdec5284ca63b4bfa2d450757eeebc88a4876f4538bd398d03;
 0x16a882ce517234ae0932404d34fd73070e27a824e337e1e99eb71abd536a9673;
 0x29c0802ac349b823b5b63267ab07fb4ac43717bfdd344a22ce4eb347dff10b8d;
 0x26a04ea7406058bc1b0892ce3a849ca4d4692db13e1efbed22eb8846f62700d;
 0x190401694ed647aedc22c5ddcfa7e5c0690182d5901c6cd17e72d053acbcdd16;
 0x210d51487ac153bd15fd95e70ce61c1760d2ca4ed3c8904a85a7be721dc2593d;
 0xb0b2f1b7b01b969254538e7e34f31c99abb093463df48171756cb005641b641;
 0x28c21cf93221e40e088a37b7e8c4e4f6b4eca3ceda40ee4b7307c9940076206f;
 0x6131acfb2371ead4b47df9a6f6e7ae744931224d78ea55cc67caaf0e5804ae;
 0x2abd9e16b7b48289aa19cdfec726fa3fa15cc1625102ae511bca45f39d337e9d;
 0x2bebdfc924b28a04eafda183476a1a5add23075c9d02b679e1064e61e9482210;
 0x1faf98e88f5306663b31fd4e1e346eebf6e3a1cb1f21142e2c22344f2adb72d5;
 0x22cb488da424d56b9878634ac766c48a306371ab23ababb0688e9fbc2bd2f305;
 0x1ebc0f4f5901ae74815b159db10956d58d8faef0992a2c2cec68919d131a0c62;
 0x29c4ecf2d8c9d693dada0aec9e743bb283b0f02bf4ccfb0ab8fc3fd7fea381b8;
 0x2c4a092b45660f079277c81df9f8f3a7cb74d3603bc839eeb2fbfd798398919a;
 0x145c56ab4720f6ad4011ca83e7a29a83fb11f6f1a5f9fbc2782f7ff4f7f18618;
 0x2809c4d7a6aa62cf849cd656c9f76c7ebe815d51f180e1dee45cde9714261b6;
 0x14881d4e8659014f6dbdb9c1a45f273ff86fd6491a729c1b4cf5faaad83c1319;
 0x2e10104a54b4dee285b186d2ceebb3c520a6f08b0f2dc3ef071aac189ff90a6a;
 0x1aa6d9185256a7da783e9673f47a57a4f1a539ef39f3f7f1686995e7f6de9011;
 0x1433a78ede2442f29e1c90a35c75945079ba472a07a5fff22dd632611f0514d9;
 0x2abd9e16b7b48289aa19cdfec726fa3fa15cc1625102ae511bca45f39d337e9d;
 0x2113235e983b253534d3373d425b2e65ad758d985010990e0cc4c8c0971fddc;
 0x2bbe5669cac7d09050c0479d3b77eb9d91f22a19776d9e396a4c79b90cdb6c80;
 0x251dce15ba53f2fcdfd39448e3ce48f74bce1d96cc2b4cac2383a40f45918c5;
 0x25af3b31579c2c0227ce1fbea8085d27d1301236e4a469f154422c0c00a3b47f;
 0x101f2400d1e814d019a47ad9bd6d800b821c2de5fec03914276fd7413071aa3d;
 0x1976bfe37936541354a1d66197e6a7818313cafdc2f4889f7647f808fa4a7b36;
 0x223ac76deff06a630762ccd8db9391023a783e28659eb7f9d57223812b6abd2c;
 0x2ac83b6435ac467384d3fe77f06d349c66d13274d40c37626c0e186ed73da3a5;
 0x1075e744bd71d84cd204e4652afab236f75fa604f833d02e2ac15f06e13ef92a;
 0x9684685d0631b2170daaeb0e82af4cbd5c2945f68dc758f05da1483c2633015;
 0x292e0a7a8cc10221f67d029c700ac0bc1a9e41dc376fd1f7ee52b1aced908f2a;
 0x1592dd8fded27b0499c5d7b77069e8eb2d27ed4d0159955db902ff47cec50d1b;
 0x2abd9e16b7b48289aa19cdfec726fa3fa15cc1625102ae511bca45f39d337e9d;
 0x116530f4782990542c91156b83b5283f48a5b3b96f4cc9a5eccfe8db89446397;
 0x20792a7c07e235c08d2cc9d5b4ef2a93b7ab876d9f646d0f4538c7c1ff354fbe;
 0x1c934293f228bc73fa4b8d5af9d93bc21b7db38e654c0f69a82e6d53a3babbcc;
 0xadac0d1a0eb882f325bcd49c617778178187541c3f2b877c9a6e2e200b15c29;
 0x23788446ab58d10e48572e52577108cf0d9fe33539bd0e8ba8d635c0d135b409;
 0x2745bd6d0a95fe5be2bf988b86fdc7d17bdd6323777ffed4b0ef00e692a591f8;
 0x17cdaa3978f7d9243acd9d66de86ad0a1bc5a2767206d506b43fa8df769ee178;
 0x1cacfa3a8850decdd65a7de60fe3d4b063b9eafaa858e4455d6b0da518c6b221;
 0x2291ce130877baacecde1e1932143f97da67a5c3b2bfa99ea099893932fd3e6f;
 0x15adba2fc3b14d20852d217be0744d63363ac5bdc8aefa6be3d94ebca832c3ed;
 0x150619b091f5304ccc7d367cd48d4b878a2de06dce5d9d7137ad6ee307e9cade;
 0x6bcd482b40a5463d05a49cfae4907c05872388694c4548377ef2be93c2b1499;
 0x2abd9e16b7b48289aa19cdfec726fa3fa15cc1625102ae511bca45f39d337e9d;
 0xc678bf7b43613dd2c36546b68ca0dd3890f78927c5b7898a79f0051aab7199d;
 0x4d55e1ef8446fdfdd9659d06180dd772bad31738654829e3f68a54625342b6c;
 0x17451474d0a043f2ecdb1c11311e7848637cad312badb49664776d9947a25578;
 0x166f2116cf6846c85bbe1e4c78bcaabb2823e0d4c0c27a6bcec3f1c1c3a4b001;
 0x1d2d00463d86b76474ac56cfbd0fbb7f5071c792f61145f1ffd1568645e83f39;
 0x52fa6833906fac636cf7a1bbe3b6d365f16d917e5786ccd1f303eff8439447e;
 0x1aee2e06db5d4e2ebdf163a8d1ef89b70510c37acbb47b5a14d0c6496e66669f;
 0x1e4d0a71dca74b2d4c0c403a8c99cd9582611412743944d25b97ee4108026fb9;
 0x1a31ea0102b313bc96cbe558f0fc662425e25fc5f9395a42a051e927ae3fa2f3;
 0x2e7d99fc4631683d67b62afc214c8e89bebc91b4adc4625c70fc5813840b9bc1;
 0xba02e66d788b4db2c10e4b63344e564cd24c1a3e7e7f3b5c8c0bc50f2aa8051;
 0x1938e6cee09167fe4f1b6256929ec89307fea623ff00a4c15993fd44b9b9ae2;
 0x2abd9e16b7b48289aa19cdfec726fa3fa15cc1625102ae511bca45f39d337e9d;
 0x24ea9e2b25c1d10973fc2758114ac04d62292d75633e5a98d87d42245d3085dd;
 0xb7f3dadf80c5be4a9fe724d8c7ef9e4b4626d9e8ad61295f9482a5bdc1c6615;
 0x6d9a25f5efafbe0738e9c1d8e291d7dcc6e70434973971636fbf957353545df;
 0x57d08da194c641d1c1957a6ff6ea5037640f6b2910f854653c1d14909a73b92;
 0x1b1c3fb5c7160d87cae56ef5a808308a5188abf94b4f127411b3636a5098a628;
 0x4e0f9b281f00e246bcb7f3e5259e4554eba1148b92b1d464727259267b599d1;
 0x1f31a5baeff037edd6912779c79b566c6891b55bf02398c2a2f1f40a41b2aac9;
 0x24ecaac4d6023fb27cb5836794e1f821f6a61924d14810ec882e757bb5150709;
 0x151f138379a4341cfb1a1fa09bb3fc4ea4f58f0c0213bd2213971fdcf1791394;
 0x1f8ffc956b5fa5f6c5700394e863341ded45cbf64199185425651e92564c2fe9;
 0x17ec84b7ec93fc7204915e7cf163797456992c8b5bd1ce3879ff7238d60627ed;
 0x3a67e721da24139c6203edf65ee56debd2db5102b2c193aca10c98e70cc2354;
 0x2abd9e16b7b48289aa19cdfec726fa3fa15cc1625102ae511bca45f39d337e9d;
 0x199a8c4c63048f8c92b96e2fe73c3ef1be1e2ae312bc504cd6edcad0bf96967b;
 0x20d5d5315614291c431a1f27ee637d098c6b2455e019872a06bfa9b1322bbc58;
 0x204e87cda44e50d72b36c9a0bef8906abb1471cb4faea1262bbe1f148eedb60f;
 0x1ae0dc4cf8615efcdbe69bf7e65863b9884297d7320b3d2c9abac80aedf519a;
 0x19ddcb6e703520397f566c8969b47605f907fd733a7531330329fd07d0daab63;
 0x224f871490b12271549e5bf1205ac16364f8c6f9cbfda8214068b69f3b58ca57;
 0x305888f9b716c0aad54f0ce4ee1c74052bcc42261232cda96eafd2c17faee5c5;
 0x797616b6e3a31ba4090fc46bf370854483846428e52ed4fbbde16ecdb407edf;
 0x10d0c9c192672de1a9ab86b469c6c9bdf474fd4c077fa2b27e702611295e06b6;
 0x1bbe4c061e88ab93144f0cdf7873acdcdf695abe01712409f942517bf2775c29;
 0x3f37c5294f581af0e0b407e1f1691acccc9b2f0fab04fc68d968627ce38fcc;
 0x10fd1cac0351284931df18b06d6d8baaae12879304e6567e96e024258a63d84c;
 0x2abd9e16b7b48289aa19cdfec726fa3fa15cc1625102ae511bca45f39d337e9d;
 0x2f4ce93fa6f69179598530075c2dfed92480e40b5082c1e4d0884a6e5a970c95;
 0x48aa1e38a66c3d656ba67124986f27fbf41e16d1aea5d66b56d7ff786a5411f;
 0x69328b6c9761099bb94e1fbaff46a4643a6d52c2826038bfbad2b96aa800a55;
 0x18c5dfbb9611df4c176034f538bb3355c4ea9a34428b568b3d5484264fe2ec7e;
 0x250964c6e716f188f1a060bbfcc20bf6c9c575aed8eee7a952883875e3469e5f;
 0x1cafc40f71b4ea55f7449981d952e200242a375056b3ebeec542f743029d3680;
 0x1e345fd27b75da9f73b66d7d11fe53bf4d7d9907194ffff926b6fd73650eab00;
 0x1f86c19a4e41622c5cf6d297f3fb0966d1ddf28c14c2ef296d811dcd725656bb;
 0x67a9ca314c1b989a258f5306f02017756676c8555e15e331674dfe2de960aed;
 0x1a8c2c393c5940ee66a9fcb7745c711183ddd8d5336cd2b72880d1534fbd954f;
 0x2d0fe4e3cea76d8b33f29cf85eb4268e0097270b955369782adf6f3b56a2762c;
 0x83f71c1657f460360ace088b5682357e7d591b331beca39de70e7c057acaecd;
 0x2abd9e16b7b48289aa19cdfec726fa3fa15cc1625102ae511bca45f39d337e9d;
 0x1029b4658ee5d03c9476e1df7b7ec5447dca910ddf67e610247695140f7ae6b;
 0x2d2fbe8b4aa2a78e6d15b471d034a31c0710a8cb23cd64bf8a105b0f5f6c5088;
 0x2c68d13a038f7cc21d4035f2fae3ce2e44b06076755e64dbc95a48ef8fd32ec8;
 0x255433e441013f28b645c439abd003cf216195cd6ac89e9cca3a2605e2afafe9;
 0x2b6131efd66fa044954f1b2cf0798c44840b9ac5f91f73bc1d6a435d192c0606;
 0xc50cf3d47abc4d5094e4faa45ef8950e9f30f6125953caabe1240c70dac54c4;
 0x19ac7bb02c466c14f957a8683f2dc7a0f888f0bb9f233acae0568493f353b438;
 0x134932780855ca4e70db189d5439192d257a8560daab00be7ac2bb05a5f43d49;
 0x14652e3f019f18958f6e8c521fb5b375f755691cdb4cf7cc5de4ea7e5443845a;
 0xeee4bb3c7a628fe38bd14dfa58f7a774001261e2c1b0013b8abc115e4059685;
 0x1ad10967a8fa3bd36d86621d021c46dba709ff285387c064ae6f305cbb0dc77e;
 0x6fc3833718a4e8937f1151ced67bd1059ab386ffca63596129980ffe0ceb943;
 0x2abd9e16b7b48289aa19cdfec726fa3fa15cc1625102ae511bca45f39d337e9d;
 0x16d751a67c79f9914851155d386e13b0058b4682283da2d2078704c75576c7e1;
 0x2ded2eddee5893bd27e85a03d6501a2968b3ef18a20ecf50642d5201fd40252f;
 0x1ac7670ba55f7ee1c2ee56e825e80ee2da811ef8fa08b90d8beeedbee104929b;
 0x64cfb658abd66706a012f10e3f27e0d8c9b83b3e8e5234774dfec5e1202712d;
 0x806d16963ae96badc162c4595f484fc6a8cdf753d18d336aff5b24ce1303ddb;
 0x148cd069f578f6a864c92ca38fad53423c9a8792967e44378305739c39c3951b;
 0x1513984d0c1ca0b24ab794ed86a4b94f4750a3a5bf1977fb6feac9afc85f45d3;
 0x51f998093e4dbb4e7f8e410139a65ea44764f0d2af6ab5461b34717a9561bf6;
 0x1f87df4d84ecd7b55bd03728de507a7c5409886811152634e16cd2d35a18db0b;
 0x956f375546f0b19f6d2f31c5be42795b17904341594daa5f98886bad442108c;
 0xf17b03f697af65662c25f3dc43f1f5e050f1ecf009ab004f3fc632938130339;
 0x2d40326e94d3dd13c0534db03b0f6ba6ee54bb280af99fdd05d1cc7c94c9536d;
 0x2abd9e16b7b48289aa19cdfec726fa3fa15cc1625102ae511bca45f39d337e9d;
 0x2b0eee4044939efed29b0a5002b16ab0e02f75d1e193a21787d6a7f93a018508;
 0x1b59d055ed845b4c304fc1e713c622d1dfcc7eca8fdaa57f38d7182d52b1b4a9;
 0x1d2d4adfe8bf73cebefe07a088507412eef5a1efc020c7e3c81fc9c6a11036a6;
 0x2857125d19ae926856a3ccfcaf70acf2b258f9fad70fe242f7168ffa2d02d2e0;
 0x2f1da0ad4d4cdbd868691a65495006eb3728c6e410a57db82f874671f75d7c81;
 0x294d34350a9bbf726992bee62b3cd7d2a333002340a4bfed74f6209c4b6173ce;
 0x16e5f374066b223ca5a2401f102d65f5e7fbd677905b2e17e568612ff96b602c;
 0x17c1bc44d70706417225c79dcc9db569c79fbea66c018f2881321c4877b7fc31;
 0x264cd13057b3635518ee4425f88edba986a49776e94760a4d73b17902cc0d359;
 0x2b8fa1e65fdb45989701a0f231114c0ef7a8fd3725c62070a9d748e5aae95827;
 0x79f16e76efaa3caa7e2f266ae7b3f1bbb54a6ee571688463c9d62b17acfd6e8;
 0x1c5a6ff0893053c43c552cf41b68b48a7759e63d0fc6069d2ee247c170f71d25;
 0x2abd9e16b7b48289aa19cdfec726fa3fa15cc1625102ae511bca45f39d337e9d;
 0x277dcb1f82810d091b7dbd02eba6e8edf5c97b08407a469c4ad99ec0a7938a26;
 0x1507357ce338a6f1c5f01907a91c62082e6e5182cd8b8c47f9051b2cbacd5238;
 0x10d9fb4dc60b7064e8d6ec643727c394da7318244c57696bbb473e2bfc273cb0;
 0x51cdb7af55af1483816cf02db477c5c21a2e16760ac17395417afc92cc78979;
 0x57d7491951dbf51f0b1b05406e58ea37d61518a67546fd430178a47e5c34dc0;
 0x1a512039992c0d21bd7f2436bad315a3955b38097568c306fa92e603d4129ec1;
 0x3047f751d881408a1f583df677a7313f341d0d90150b0031bfdaf5a17c1a71a6;
 0x182d95d647c5f27363818039527bbbbcf23f4c143f6bb98b064daa5f09d127d6;
 0x25973c85813c7ec78b26bd63395f522e0f8cfb0fa6a82375b9b65ef0e24c2aff;
 0x30016e4e94afa204d5c420908f1aa18fbbe286a9512a0f7dd492b268e2bd4d0a;
 0xde8759915e7ab1ba0347e7d3cead6663449cf3e56dfbc87b231f784a6a16f6c;
 0x2b3e7d63f286ab49bb3ccb30f9a8d337c2a871799020681e7c1e5170569bb6b6;
 0x2abd9e16b7b48289aa19cdfec726fa3fa15cc1625102ae511bca45f39d337e9d;
 0x22f6dc515f2a6d844a494d3c307ec715cb4ac439abab7badd9f0084ce1785718;
 0x1ec843ef7fd4d4078d3c68f3f699197d1818a3321f64d15d940ea6816db2d4ed;
 0x27488355bc40e3b48175e215bb7937413eb1fe296f51266e42d421d1d744859c;
 0x2e5cb786cdfbe0c74b05fcc700ee95936658634d6bb9152251e1ad38f3ca6666;
 0x92f4b8b30e895442ee3f481121a04542cb01e9a458f3e61c773328e1b887f51;
 0x2943525f7b6302dcbdabfbf7ac5c27c0187bb016069c33b3947becc68c00a873;
 0x22a61651f69e2636019411d42edfbcb0cdbcc3b1c0f5bbee8ac9baf66b1b8487;
 0xcd43ea643c19e6eec4448fbae1ea6c40dd9665d93b04099658f4e216b0d7925;
 0xe6fb9ac72a3c4754de58d5b4ebce0f32aa651db3d14d5adbab0edf79d746644;
 0xe18bf3657ce59002f57e8a25131e39534ade10d742313d81f02beca3cbef04d;
 0x24d31ca462d9f59dfe6f114bafbbd67bbc9fb15e260bed3552e06e559bc049f2;
 0x1663ec74cf67dbb8e668d7eac5c8bf51c5742c090f7a707e297d44a0e300b093;
 0x2abd9e16b7b48289aa19cdfec726fa3fa15cc1625102ae511bca45f39d337e9d;
 0x159eca9b923d7cbe5bd8ca7b3ded11c3ce6226130a63cb905289e0f02a5351cb;
 0x2abbc33b435baed63f3c31aa583ebf8061236d423321e6ca666d33a0159b1193;
 0x22798974294faef1e314beb8b7dffae46b50276230b06c98069b742d5bc789ce;
 0x56841bcb1c18a70dd298ada142c577a249b7ca301d1080a6be5a621d604f15f;
 0x1823a55887acaf96966399d381bdc7b8a792d40d71e5c5dc24a51d02f9946cd2;
 0x27bb9a8678b0a2cbd911e61b68f4a6928ec6f3db90fc28884af8e20ef711842b;
 0x1391eb35e10db17d84b0e7dd45145a754977c4cbb90ed1bece966ab89de71f10;
 0x1ddaad4930fb9cff01affe0c6bc2034acbc20df09fefb4fea7c346dfadcf99d8;
 0x967a6467b486450b51ca8d529d6aea1efb101edf31f3646efe1e969535a6a8c;
 0x26edad91bcac2202606d579d3682ee71417af365a5bd3cdeda16158d0059f32d;
 0x9c8e2fd871c35f3448ee49d7e7531dcb5301a6e748809ee639b152896773878;
 0x2de254340f39689fb3c5e3740c1d1ceee26e8ef87c64c8b3ef5eeae2712a2fd;
 0x2abd9e16b7b48289aa19cdfec726fa3fa15cc1625102ae511bca45f39d337e9d;
 0x229ad4c71354c4b2ae2f011e374de05f72548aac7f407d8f52f00ddb74f2456c;
 0x15d1ae9e3d615f8321be16db99bd43b9231dc51fca7ae9ef2c1ff50cc948d5e5;
 0x1ad595eb60e44bda1591a4a7ea6facb03ed18e8e4c7fe44aa4949c176b3fdd93;
 0x21c6b958e8a24ddfd5686e18a1b1c93843ea3efba13869302f46382e6a57e567;
 0x1b4643c47be36a9608af217edbf9b2138045e295b062dd4b720896c55c1980e6;
 0x44415df1dbbaf342d11d905f569a68a53cdef58ce2bf19503ed0d032ad3cb58;
 0x2b1b266d410ad7a8990d350e5be5b1be70822f5cf0591cfbc00302c6a1504fad;
 0x3cf806a68e9ee25ea00b57abdeb9f4b5ca199f9af3428a8b5cc87db1efe81ad;
 0x1013c9c92352dfd09c3e6acaaffa2c44923b35492c5691bc7e9e734072fee822;
 0x18afc92340649e0d9608aa526d2f86866d4bc5280c3f45addc6567b8339286de;
 0x265cff469832ff20e35d2da4e50505b8e17a4eeaccdb516f36f3a71fc916a82d;
 0xc83c2b9df3aa4a874494e329206968b89b23b02f35258788e9bafb43c47c973;
 0x2abd9e16b7b48289aa19cdfec726fa3fa15cc1625102ae511bca45f39d337e9d;
 0x10bfc00fe5269d28301b200756e26cf1281be271d1300b11d988a9ebc062b10a;
 0x303c1e41ec4614539b4edebbce405652475c1282eea708cf2ff39ba8aff4a4df;
 0xcb8f9cbe9420f6adf09e987a8bb44158ffba89abd7a738ed54ac6a95f17500a;
 0x2f0cb3011c761f84dc5b01ba7a89194919d06f94304fb99dcbc0ad7a7bfaf796;
 0x10151a6d8c2e4d4dd265b3ebcc0e778aaf056a02139fff9c2ef25968dd2abad9;
 0x1e50838bb4dc4ff216abf8455b8585010107e2d64d1fa600f6f3408655d36fc0;
 0x528850ff2c7ccccd074baa85e0989e57ce76ea60b697b8ff19c97f1f9b5771b;
 0xda83be0e16ae4edebd1fbbd5b3003486f5783bd79164ea1c6a4fbd945a285b;
 0x1bf809aaf61005aa262952e1ac2141e5a0aa596fb9d828cf2ee2639b59101e65;
 0x231a51ec8565bb72d6791bb758f8abbe5392ce08a655f2bd03f7593a026ed371;
 0x227aa3bd0866433629f3cfd228e20be57f8499f4a5597d3429c40eadb238f1f0;
 0x272b5a76f45cf6eee3210ca6df476b2555fd79fd06180b3f7eb546bdf2e9e4e8;
 0x2abd9e16b7b48289aa19cdfec726fa3fa15cc1625102ae511bca45f39d337e9d;
 0xaba393911c001b6e701b44726a176bcdb276d02d3eff5e70b0cc16aa7570958;
 0x282c157f6cc7614232f974eb110212f786134a965872ff9ee9430cf05a7826a6;
 0x16cb3b06654e4997a543284ea7d12efa7b821e96889b0dfebaab9eb705d829b7;
 0x2364c3f74a3b18bc2af5f89126552fcb58c80ecee9c05c0fcb4e39332dedb205;
 0x267b1113aa1f20f45d5bd1e042290c8d1e7e7b4b5628184704b81f894d07fd0f;
 0xbd187c337ead48b6889b3e20026dbf604729fb27460fc1b51b7b3a03e9812e;
 0x2691351a32661a9080480e51d758cf0e3bbb9dbc43e108293576c153dbb92654;
 0x13c49152d941d3664ef620a47f29229b8b41060b9ae5880658772ac615f6c48b;
 0xac5e68b38810d5343dccc099076b7ac9388c25cd6a2b2d182800156ad18b438;
 0x18a7e5e6e2f6d92c409fcf6bc1978d963fa8093bd83667a95f19841f1a826022;
 0x1ee76fbde9ff833d860abfe09f44cce584cede5a6a20aa765975764d97c3c38f;
 0x29139e18d16666687e950c7f417aca14588356d6737bb72d04444fe31e15c292;
 0x2abd9e16b7b48289aa19cdfec726fa3fa15cc1625102ae511bca45f39d337e9d;
 0x27ff4617698e6b395ced6d0e40bb327a4dda5467ae001e4ed828713c58e4cf72;
 0x1faeaa26b9d4016a7b060a1125b5b83e22174ac6131c860d77c34cf368d4d5fa;
 0x116b96192f543b8503130b1bf684a9bf282b41f400aad0041777f741f97d42af;
 0x1ace40f357a524887cbc0748e9cc2bd2f968a87ef94468359c48fdd333eaffd1;
 0xeb90e74f33e537563c4c2f8633e6d8f8d2304266741ab5b0c0c97a89c4f76b3;
 0x15f692b65b0e4a2729d1d07a728029a22e6aaf2d8013a26d80ea2f4ed7230b2d;
 0x199c258f1265f41f038d234249d79a9d7cd0f435355f9c9f9d671d12b3d81360;
 0x2aa4870dc13bc48b19f3d7ab5df282f855783d5cb1539cf358d235859cc38328;
 0x2fa96e08d4613eb78063774846b608be0b7014165df4207b83217229d452336b;
 0x1e45df6508abb41b74eef391fe603465e142e7331c1a11e6d1a6dce3b5af459e;
 0x157326de3fc278a3ab49527c3bbd66e6944065a068afdab3426acecda2fced3a;
 0x13cbb184686e4e800c03d32b9bb0e86322c0547ff70bdcd6b6dd622fe9cf772c;
 0x2abd9e16b7b48289aa19cdfec726fa3fa15cc1625102ae511bca45f39d337e9d;
 0x2195bf264d78f5905511e946fa2bf8fd1c31e251405f24edc679fdc2e28c4935;
 0x2891a04c8c9333c3f86cb9c27db0cd4590b91574f283d98d87588c5329070ff8;
 0x25774ca47fb81e980d6024bcb7849e10bf90974712f1c15b3c5e42d48a990b32;
 0x19afc1bfca44fab6dd8cf347d13bd9d679a663ab864dd7474c095855a69489aa;
 0x2a855f347153503391af5cdd8f33ba84d9b7f330c5d71a3d4d1308aa36ee1f5e;
 0x2169a917b5586a2cd1f44fc39acee8a0af21c0b0551fe2823662087b50d3e183;
 0x165c3839b46f2b8d9c94cfd1acda9fe4cb4b37b64f7530324e44a859b82c083f;
 0x12bf9acf97c5d1b2c23723541455fbfa679d3539879434010843e578fe33ba26;
 0x973d4990abd501d246a5bea2b5d467ae07f8f141968bc7049a8d7d100b8d80a;
 0x281a0f1018049ce5560aed11919df7e93c341795c9fb1ea17ca7f6e61f56450b;
 0x1607dc7766404c513850fdefc9f3e25d2b9f6e90b4f566418fa142b787ba1d2;
 0x100010328a776d1e0c53f55c79556f12bee9f2fc908b0b19b215253b91c071af;
 0x2abd9e16b7b48289aa19cdfec726fa3fa15cc1625102ae511bca45f39d337e9d;
 0xfe6e334c004b36f6a9aa7a1695325b8413cc3a527fd77093960d6da1da678bf;
 0x192c7a5566dbab04d61dcfaf9675cc88833477473f0742c7df458dc0c72492f6;
 0x16d9f79f4e2e32895e9b7d3a13cba3f9055c22ee00fafaf94cf1a2237279c28b;
 0xb3c970c3abc81a5c64df8177d69ce62aaabafe4c797eada6f8724ed59924963;
 0x1e3480b6b43165f2e9e98cdc6b1750c9f8552375c746fd9318f6e98dde188146;
 0x3ed9978d698020e1627fbde78f83dfd7267a525315d03c27f934a04901d717f;
 0x14f962e4f1786884e7ec52bda63442115550a7523e9840ed60e8ce1d97e81c27;
 0x352ef9bb93ac53fbf0cad44a4c9f359d8be239da7c8da512c3b8f339f1eb8ca;
 0x1d7daf3d516993cdf2ab5199f7fa038ec18b7bc1d7643191dca490734b41162a;
 0x19c4fb9c7330292b9859c4471c0558692ef015cbd58c7d6b9f8f6a61701055bf;
 0x22261c2ca798dbea2a989b4959a6ce59a327a1a5817ef4d0c99147d79e119d66;
 0x1c8a822a7cc949bc91f32624282c0b91835aecebcc805add937f2c33ef2b13e0;
 0x2abd9e16b7b48289aa19cdfec726fa3fa15cc1625102ae511bca45f39d337e9d;
 0x241eafca2ffd1a89501dfb8ee9f6b91c270d2edfb22b77f5d96b64c074972866;
 0x1ebfd44d328c120e25331359b950e96faa3b24d803cfebfc3fbdb5aec7d3f21e;
 0x1d45f9e955be39be29b72435e60ccb82ceca4dd1f1bb242ca40461f9966dba18;
 0x3e68e982b6f9a1317a8c72d1519c8d992747107cd1647f55cf86f1274921934;
 0x24d58310c23fa88e127678cfdadc69ced4344aa62dffda5d17bfb5cc6cf92164;
 0x277159e31996dcdb712c9a030b14b40e45704c9debbf6c83381d23b98277564d;
 0x3fc9ff00ba6b7b1584eca5fb9bc2479289e05be8f7fae084849424cb08a1412;
 0x102731ced3c51f13b9f0c571a0327d5b16984151ac388ae71008e062b103c7ed;
 0x2aec624f610d949b7e050f9240bdc67eb00b17980637731a93401129babc51c5;
 0x348bd0822fa0e5733e59d37c6c25354a899286210dd11b006b45086b8936e64;
 0xf7b4685de34e45e8e884726809202d717000926dc62d3373ecdc8f6d6105a3b;
 0x229abf24fc333d2643cf514ec877c3155b9f5d4563975ddefa179e69e728ae0a;
 0x2abd9e16b7b48289aa19cdfec726fa3fa15cc1625102ae511bca45f39d337e9d;
 0x1e9a882703f9fc17e0b9b0e13c13361beb7f37c04d00ab391d59bff4ea9cc738;
 0x18ae81de5d561926c49500b4a1c817e127ff35bd92ef713b8becd8ca934e18ee;
 0xf691c4241640871dccc03e386a591c9068711b69e35c618ae8213a7b976b467;
 0x1dd3a781963eacb7623f1a53996b79b1c5dbdeef63ba509d264179d7c7c58367;
 0xe30b8151c59129f74a868583f2da36f7f32cf07d93a21dcb8a418929a3bab4;
 0x176a4a7f6bf803a3b2d7b366d35468d449210f48f31753fb63d4c50a522f04ee;
 0x2d0138a0a5f600964d4ba4ce8391caaf610e7b9cb46ece6bac438658e7284606;
 0x1208049ec66dd8b35cdd748c6b7e54c3dfd4ce63937a8e5f5d7bb55c70bc3256;
 0x1c9f3c36dfe21664afaeb0f1d29166f2896455fe34a3e3a937767a3de6fb92ba;
 0x203ca885554ddda35c4ca58ed2150867f677c99a1afa4796fbec4c3ea534b7bb;
 0x20e28f5d901c425eb6d48980e9f86b212911fd94de850663e4bc4042cf2fb8e;
 0x8eee40dacd3ba8ca8953eb7713bf9c642327bb96f55a7200f7f19851a25147;
 0x2abd9e16b7b48289aa19cdfec726fa3fa15cc1625102ae511bca45f39d337e9d;
 0x2de2cac04d23e8f84478018e4160a1cf34d66ecd6b4cb8ca67379b0dfed1707d;
 0xdee104be28ba9a4493e05d14072223610a77ef655f646a8ec1f254146b0739d;
 0x198546db1f9b3073c570cf4937bd3d716336b8267aeffda95debaad2764c91b0;
 0x2df10c785477ccf2aad54873a099f7a5245b7a1797d4b7692df35a01a4265e0c;
 0x38e6b803b72b22d07f3c4d4da85d583d1952dabe6f4cbfad8ae16ffe5aaed55;
 0x20ff66ad9f9056e8a0c513785f7f1aa1ad0b53ee305429c5d299ecb3b7d3ff95;
 0x2662e4ce6ef014cf95ae1041e8ee8f25eb02d188a234bdbcff2a4fdcd222fa0e;
 0x174299b27d180d0ac59e31ffb101a68ebee5b5e17e8ee251b61cdc2d73b5d96b;
 0x2cd73c6ce46c664bab760c4d73a7f05132e1ddfc0ec113e9b37f9144f7a1a24a;
 0x1c951a5015ebe45893a92af1b5b51688298fbbba474875f7b9bf97faaa69cdfb;
 0x1292a82ec348fc639f61c1b9d4f48e1a729f8e4d297289c45deb9d79245a7c6a;
 0xa0eb1649895b7028e7b286f147cd47655fd9380ad96b12f25d4d50134f1b624;
 0x2abd9e16b7b48289aa19cdfec726fa3fa15cc1625102ae511bca45f39d337e9d;
 0x153879267fe585e41277a47095c2e71a556aecc89b880549a3e6598a2b679888;
 0x20564715ed17601ede44b0ddeaab78c07b24d7c384b2a278ae5902ae4d53ac21;
 0x244a763e10b0ebfdea4ad6e115bfc6294ab8592515a0f103750f23ff4745d4bb;
 0x2313de5d350a08f83a06f60301627b52170678ec4089d95e31a85ce639d4d3fa;
 0x2f61c7a357564272a6c31f1d4a2c37d68f947ebae5ef06f0003f47baaf8b2551;
 0x2ba56182022bfcaa94b28c4bac74fd7bab368e2f17b123aca7cad3c07377ba7d;
 0x903e97b86b03d63bda9d015cfac4e1df0c7eb553114d6603e1d9cc6def5a2bf;
 0x17ef136a59507887ee376c9d03155d5638f73695829bdf753f2027c93f6e0ff4;
 0xd2cf9780d3b8665f07b485f9b61c97ad43523b52b89a216175fb479596b429c;
 0x2cb10c6713c9c041f988e1d16e1974db3bbf64fa6a0dd716654d2f3d7ee3fa08;
 0x2a7fac0f7cce1677e53465203478eb2a87f4a5acfd0ac6b10b24261967f265c1;
 0x150f1a3251ea142ce9c8863adadf908f98b6f4eca4fa8c7f60834ebda805efce;
 0x2abd9e16b7b48289aa19cdfec726fa3fa15cc1625102ae511bca45f39d337e9d;
 0x1f5f9f0a9e7226242aba685459ba2d087305dbcd15238e0d61537fbcb4e8ea54;
 0xfec778388bd29f1fdc01719aa2acfbbd07873a4c628caadf04ed461a49b5730;
 0x8fbb80d8ad67e52030c52512f3947eb0fa257e7a6bc97dbc18848ed6843fdb0;
 0x220ae6fc4a1411f922a67c3d2191d16fa72e4485881f5c44d07ad1b30ff72534;
 0xc24db144fed773dbf4a285f6b292f097e73c4210b64f60d0471099526125207;
 0x153e33da5f9393fb14de5f8d9ff25fec63f9c284563c9b75485b8c5965716022;
 0x28190eec890ed4fb51176a21643ca8bf8a4c6d1ddcdfbda70baee9842e771e0d;
 0xd352d314f8a649bedac97ade9cbe51cbb4c1d76124bcb753ff46124ae2c671f;
 0x589454222f880ff67b3b6771ac9579115ef98b4a5291ad1f466c37df59f7a0c;
 0x707968b36327eb7bf42d881932225d1e6a9cbae3e9a9eb1a3573575b081525f;
 0x24d15b907584822d94ed3cfb07644a1d9cf985b94ac08fbabbbf5070ca3ba2cf;
 0x2d51c48b63d97625628fc1a9c265a29f4b5ac1a1d0ba807f3f1d6a729e8d0d7;
 0x2abd9e16b7b48289aa19cdfec726fa3fa15cc1625102ae511bca45f39d337e9d;
 0xc5d3e1681af8c731635a66d82e8ffa52d6fe9ae4551c31d9ce5c7e9f1482f3c;
 0x19f573c7bbaf4af57ab119d9c34a976c7a2770e9960f8324bf938e67a40bb621;
 0xdd53d93a158832a63ae02346cfb050f4aabd93d2c376a694322b70020af739a;
 0x122168471be451e1fe2383a1a82795668084d4602e136c3533156ae4eb44e5fe;
 0x181171e6af7921e268f8e4ca02a69df02f99e374f086433e2d8438465b878fa4;
 0x20fde424afb171516bdba5aba1302f3c40adbc6df6009941ce0978e1005f1570;
 0xc999a3c07697cd6e4632110862a0e3cd6f2ae7ead5a0c62f83e57e3752726ac;
 0x181e43350d64b75df7c57808060a8a467304a9b10766426597fb485016642d1c;
 0x22f941438fb638d0f6e1013d81672149e91bdd794816a149426830a140ba5520;
 0x27bc96df0a03fa540349df2a46633309b8e0d2935a624c7aa51cd859373b1d3a;
 0xda6574a31cb0b010480dfb6ad33015708e71c420b8f3664186876afb8b48b69;
 0x2a932da3d493f5d229a00f18bdc6b13a00783ef10510ef02d3836a9728e75653;
 0x2abd9e16b7b48289aa19cdfec726fa3fa15cc1625102ae511bca45f39d337e9d;
 0x1aa840ec7905fbed4b22675c84cbd527218db6bdd21e9558fef98860bc337607;
 0x2c5107353c0edc8e05ad36b277477c9d3ab2d26fd43dd2252878ca814c48459d;
 0x1aced21cae771d0294a1630be67579d81245093d2731898a72b822f8185ef3f8;
 0x1a24a7fa4d6d5498af1df2f86ca66471a340c4747a1e24f592aa7667346aaa8;
 0x289caf37dc4c64fd8c66718013fc3f1492b3c76cd1ca713196aef3d95281e3a9;
 0x284c43505df8fa7ddd6f9ea7464f3caca8a3b3b55d39512a38b2f37b7437802;
 0x501489e7c91a13086c850a7174848dd37bcb7e6a2f8571ca3086415e22a249a;
 0x1d911e709cba9411cf221392b1d8e8f292d3895e5cf250977f7bdf724637e7a5;
 0x26ec755542bd45c2c4968fcc98192cac25bb539cfecb7c16c926edfebc0dd4a9;
 0x211b3d812f9687467d623861909909e8a579e66c135d0ad0d36038116e858ceb;
 0x1835f5c44c7bec7bff1c814c38d109572702ee85860c2977650db910dd555db5;
 0x22bb08010cdd744ace85c758c58576d6b353ca6326e9de8ca594c57b40a76b48;
 0x2abd9e16b7b48289aa19cdfec726fa3fa15cc1625102ae511bca45f39d337e9d;
 0x178bdbd863dfd248db7cc60881b17996fa8cb0f5a806ba37e818d493dd4d04d5;
 0x2c2feebc25c3e9911fbcd7c77ddfc8feda0e36b3045e86059eb2507db84b20dc;
 0x1d8f0924e2fe93b786ea1ca32cd7dd268097e1144e5f386813e40d7de6385414;
 0x1d7b4297d5b583bc00d946ea2d45e79bca3b869f3889a3ef8b6986ee80515603;
 0x6b29e8a6cd82571306523e57a88ae2f1c627688af6a57ab4adec48071d864ad;
 0x23f708026a0738512248c05a5a51dc0f0b64cbd50c98f2c001301a8dada15649;
 0xfb9b67606d1b70a59afef99cc15b51ccdacd8ac412858e37fd0a5b685aa1187;
 0x2e507b8087200a7b14d7c84650e5683ef78d7e5281b489d43524206ced314cd2;
 0x1bec098d210e06aa6b800469725bb7d361da8f106e3df06fd5788b3b423bfecf;
 0x6ef2b78454ee5f43388a7ea4728996fcacb8c01c644534fa590de1da8642172;
 0xd5662f25569baaa0b10d66142378f0ff302a3654da318bfa370812bad2a66fc;
 0x2bf77b6c0aa149a79c695d67d64005c90e926b44890085b3fe631b4a8da64760;
 0x2abd9e16b7b48289aa19cdfec726fa3fa15cc1625102ae511bca45f39d337e9d;
 0x1bd8975c90ca4e356f1c37f12fcec0ef5ecf484736f375f78566ba8aa9e86427;
 0x2bebb46043c675d8d4b13e9d3c243f49da64640954fd5e194022c846d69cdd69;
 0x1fb7e54c00e38234348206b136e17db48743a1e8833a4146f905113960314be1;
 0xfa50d544f0434df48d3dfdcfdd164b9ebd8e57d7a60be66b879294a40a9c396;
 0x283ea6139b65326666af04d9913f3200f9b93067867be1f2431796e9add5bdac;
 0x758ac2a306bb32c1030578921fe09a5d40d83d968ec10aad31a15a7c56da8b4;
 0xf413088d4106e8a46bf7cba046d1f47b7f8a741400768835d853830ea00ef3a;
 0x466358069d58f4786b2ca782dc4f7a6786fce88983fcf9275b9a5850f814f28;
 0x1385f23802d6bee8b76743564dd5510ed1200f094ae6c16f03ff8b4cefa07047;
 0x108072d197cc79b4188436a0c50845d245ccbfd1480a4882af2cc88351d5419e;
 0xb6d297f7ec667c68d5d7ff7aef48259dde62daeac24b7868e0fad90ab3f3a79;
 0xc82418faf403bde8e551554f4c8be945cfcd1f78615c9525d3c607930b0aba9;
 0x2abd9e16b7b48289aa19cdfec726fa3fa15cc1625102ae511bca45f39d337e9d;
 0x297b1a1c6fb19a9f0490226d23936796caa8c47a390ce5e3414d91243adffdf5;
 0x1d8de05dd33fb6513962f6bf1406d3da402064e2d32000dcfba1aae1d39a2d97;
 0x19ac0a18a29761fe4968baa2f8d4d4d7a8d241c5fc5cb54a13997873a4bf8f0d;
 0x13009a2e1be50b353babfbfa0c9fc48341125c9028a93d99b16c31835e2191cd;
 0xd660995842ce191476ad064a5599e2c5415f48ce57392e66e671a503a30b119;
 0xe5587ae4cfd416edf434a263c9babb45d793a1b522fc96e7845005f516944b;
 0x10fbbc420434916261f6ce95d1ca7497b8237143757089de2c813388acc3070d;
 0x190d15507748b38ec5d8d96cbb40cbccd3cd004f1f500f3a8fdf9d9dd05cffc8;
 0x70e81c5cf9512b85087fec4b044bcacdf0ebc36939e0e33f12095929b153fa7;
 0x20577171accc171de1282cef827a5b3f7620c29566598066037947da13dc09fc;
 0x105c02eabf359c9fb180c1112e560bc894bc2c453941f29e1b52c28c0d8c6c31;
 0x701986232b2471f9bb70c70941f0732c59b9d1c1d7acd7df2b5c9a3d1063397;
 0x2abd9e16b7b48289aa19cdfec726fa3fa15cc1625102ae511bca45f39d337e9d;
 0xbd0cfaeacb5343bc71818eec4baa3eb1f73e5ccdf4d4fb1e585b9326794d8ec;
 0xab6ce9fe9ad13beeeedb535f9cc7bdd51a9edd426a54a9b85b6f23911dbcb8e;
 0x20f5023d1e52fefee124ab42f5eb28a0c18cea887e3a0bb7c4626ee694946984;
 0x180f0ee72343b33cd7098990a9bf33abb509d454700f602d23067f031a314ab2;
 0x9e006f3e85886370bc11a2c92d6b1905da2e1d7389fbbfa8ce2b0c3797b3204;
 0xcd828a1733f7fe84eb56482b0c373b7bf9ffee9c70933a70782c46104a7abef;
 0x14ae5043d94b8f236d770e5435d370e07be470537fa8734aa62453ef2dba83ef;
 0xcfc46dedc8f1535ceabc7507cb5bc7dc27a44b69eb8d799ea037b9dc0cb49bf;
 0x13d10cd39447e65f03bcc27657ce46b8f4b9f0d6d0d9052eaa700aaac4e56204;
 0x1d19d4106503a113839685de852f7dfa1ccd2131552e18f9e62799bfdbd394e;
 0x1c1e57d62f76f88539ab7fd73bd7577c358aac8bfdbe0c0953cceccef55b1c7c;
 0x19f2dac762392328c37a5a54d4cb980383918297078ca2fccf8605c52f36ee48;
 0x2abd9e16b7b48289aa19cdfec726fa3fa15cc1625102ae511bca45f39d337e9d;
 0x11104096d51f11f8db806853a470e1f2838eec2abef570a01a7bc833a27526f3;
 0x203846151d74394d322ecefd82202cb29361192fc6692f8de4c0788e5364bff3;
 0x2a3214dc89d8794cc308f0b2fed1240426e9095879935f4889f7bce9b06d1223;
 0x296caa3afab57aff0ceac16ecf05b6887ae6981c263b60b49eaadbbdf5332a76;
 0x2ca633b28c1343b7c3ca88c3b6f4f9da113daa93280626e98b3c79d6932d3932;
 0x2c62732b69393a4495154205a9b636650a201271da60b65433419ae8f4543f2c;
 0x54a20f1bce174b2063f5581a86913d9edb5b6b30de76348a881f320afcd4c0d;
 0x12dbc8f4c166edc2716c576248af681b69ed94ffa1e5b3b48459c9787ce39569;
 0x13d733d018ed7c6f4a1e471d7b8a6f36047ac9ca93167d7f0aa674f1704fe7b4;
 0x2baa1b752a095c0d7552dfb65cf2f568b47a132ffd5000cba2720ba8ac4c18a1;
 0xdc97cfacd4771b400ba35d33cbebba737c70e84f07d0ca37dba093a2460c944;
 0x2eb71ba2764a7250281b7d3506deaf0416593ec3428df1a9fe2312e66541f31b;
 0x2abd9e16b7b48289aa19cdfec726fa3fa15cc1625102ae511bca45f39d337e9d;
 0x24a6b2f63282ecf9be0988f99d0b11798ca33f2c8bcc4e5669bc7a256ab3594b;
 0x13b074b54de58e9fa17ce6356d3a6da3d800419d9a7170e3bb1310daa4f4f96e;
 0x2711023ae2f03c0399399775a8ca018e7b91e50fb4c7529bbb09d5cc88dc9d90;
 0x9fbf1f0c9fc28e92f2040fb7b132373a55bdef07f9009c3aefd13ee0f7b369a;
 0x2b5a1ba0a4702083424b045869aff8680388290f4b164cc2f022b16eb0e96e58;
 0x1292c762ad6a3abd75f5ead608b8f2f90f8c528b772a42d750cd244d74db2e86;
 0x99282d849ffac983bc6cd99827a1d368dec42e7fbbedfb56a6947854f4177b3;
 0x176eac7dd262c43fff3d935c0c11db3d23b0542a6e5e07502dbcea633ae43106;
 0xfaa232a1d0ceb281c3a428f3e67aafe0fb1a27fbd58c89b3143f486dde5db27;
 0x20cca8c39156be9d3b7f3caa041af52ea538f3ec173cccc0b3497aa068b8e1a3;
 0x146799bee14e96cb93165e30306e78be322d11b4ff008af316286989d648ebd4;
 0x2b1d7a8ffc222693ea0d5398028d6042bcbfbce6894aae6c79c02d3398fe43f0;
 0x2abd9e16b7b48289aa19cdfec726fa3fa15cc1625102ae511bca45f39d337e9d;
 0x13a158f9d67d4b35e8187f741513e818c32a15e9ce3d7ad17e5e0ff76861073b;
 0x2b64a21d911a768ed8f424092d85badea0a141699d41bb31b44d05ca7677f622;
 0x6721fc051436a604df0acd76947426dd9464034c79d02f434ebeae270b8f113;
 0x1ffeeeae4f5475d7b8cfb723d7daed094e18949532bb7f47635ea7290d27b75b;
 0x94d465c413d8f36b86f1a1d2cf263ec81a2588fe3784ad6c7e7abecb2e59853;
 0x205f5fdead5ce83dc8000b0320741d41c9d2c729ff5a7f0cf8acc2c875cd3257;
 0x1978d9908c11cde5f456e20e6ebbecb4d06fcd7e31e5e70ac0efabc721aa8a8f;
 0xdb51092fb5654d04e24dbca267fbaee53776bde616f4f87975b9759cd833207;
 0xa93c02bfdbe4c17a20506b1a5c56caf375aec6dee3b0b2a0884a48b104c00ca;
 0x26d4bd0047fbd72369c8f4834ed8144c5ff28a42ae16b56818b842b9b4d6b9dc;
 0x17c89c980d214a12738a2939cc7fc425406aed9be9a932e0c427991610c0cf73;
 0x49a23ee91a6c076fe5b135cb6f92a8081c604adcc21c8d6456332de80420263;
 0x2abd9e16b7b48289aa19cdfec726fa3fa15cc1625102ae511bca45f39d337e9d;
 0x13f9655a5f1532244d4e030e782ca3f9d236f8d302af289b9c0a946376b45f3f;
 0x271d8aee48a5a8dc6bdbf29a491b31f24c71e023554a92693eaf0bc68a6f0272;
 0x250f4bf66572c4d089c73f90e1ffed7638ae0f926523295891cf7c765abcc0e6;
 0x155c20d00e84b634d4884c42359c91df2fbe1de2f75006677041c0e70bc23acc;
 0x14c2c6a209a7bc6aa6d978fb994d95646613ae8e6b0e0e5f5cc8f5707766c7b7;
 0xf12be26119ede0fddb6393af22db838f258136f2031fdd223dcd8e1bea243d9;
 0x2efdb0edc82b4dce032308b04745dd1f1fbbbb5640bf28b188031e0cb2e1c1dd;
 0x1ff34842585b84d2bb8c9151b3f6c65f48b84a4e34b07f60192c13a6ce08a7d4;
 0x2d9fc37d4a22c1f195838803941d2f629e69eeefc566990919974d8e7aa968bb;
 0x21b778120c0eb0974971f5a24e29c204042f8b50a61b785b7611b8c0ecc6bd8c;
 0x1fd36ff9b7adcf1b3cfa6ab317bdfe9115683da95b29f84c4e113fa6e55c6b90;
 0x151cf47cc2e82f3eea09b8d6aa86037caafdd0cd43a85ecf5fc3d314380e99d8;
 0x2abd9e16b7b48289aa19cdfec726fa3fa15cc1625102ae511bca45f39d337e9d;
 0x19c8e29952ab4d0984bf1da922e2448fa9910c0123a999a592dcb473f296564e;
 0x23331f65cf68a733b5e8142daf41bb2cbc40b2c334b78820e92852637f1e87ab;
 0x2a7f938a6cdc65be6c071c8807ff6df4c48a36bfbd92f55fd06c057a48bc8aff;
 0x2c121d40b94585543cbb38980aa3e320f5bb460d165fed90e367f2799cc1e8ad;
 0x2082427ee8b6508762d08df82f8449c47d4b4b117165ff4fa1ff944d63b74d7f;
 0xbbf36473715a6bfeb2bd46b4650b2e48b4fabb9059c1d41675fa76d880edf08;
 0xfcc45095ed5a36166ce4033e91caa2446d9594905b652b7b56bfcbe7fe03ff6;
 0x270c8e9de025f4460363730d789c1f3dedea3343457841db516e129b670c25ad;
 0x1e9cfb5b0f1dfd2465ef5d2731a8d5d26b5479cc6b6e438783231e5b0e805faf;
 0x1884f4ef9e723cc405fe49803473ebda5080731b4878e1d3a5108fb20896d14b;
 0x182b8932fba285b925b7454327ae2a1aef739b088bfb47dcd675730bd1aafe4f;
 0x222f2075bf57fc059a247d5e733b3828fec1aac68509a2c0e4a8ca1fdada90fc;
 0x2abd9e16b7b48289aa19cdfec726fa3fa15cc1625102ae511bca45f39d337e9d;
 0xef4c76e42df7e6d4e71b536872ef6816d62d64c06322bdaac4aae65ce6d59fe;
 0x4e28c59213cc28cfb7b21091bc98169875e4488188b70a385197588025ac778;
 0x2d69c1a48c1be2b798dd77218a0653f7bec46bdefb7f55cde3e6d28f56527260;
 0x198d2bf44196f81d74761554f80cc169eae8e817f44ecb588bc64f6277f1d625;
 0x13c8bbb561fe1109612865ee008786c5d50158e42d9e91b6f52b02508b67874d;
 0x1eb37605af262ce36884c03967bfc38d8f625e080c7bbeb4bfca07e25458d12e;
 0x25cd986975f4cb765e4a8f17706cc4438675bf8ab7b110470d88dea1a64f66ad;
 0x71d02268b089992a8d62240d94fe171bee083b1a2d9bbefce3cc7c8cff5a577;
 0x12ee53cf69c9a0be3be3de51789d16cbef35961c6114e4b01244d814a5ced3a0;
 0x94acc645dc2e6929022f4b4b946e8f51ac595fb3200074cde24b86643bbfc43;
 0x22af41b2a54ccf55b3030b344dbc82eb8499ca8c67c191d4b6873bcdb7639f9d;
 0x14c87352fe94d929e26aeedc2421c5812b7fbbcb00a7b20a79877ee086416778;
 0x2abd9e16b7b48289aa19cdfec726fa3fa15cc1625102ae511bca45f39d337e9d;
 0x21cdd152af751112267ca585f98b2abd9bf78eae7bc404dfd9e8d34010af7c3e;
 0x20d39dbb9c5188640b6f30abed60efa7c61433e6ffeeaf7cd73bbd2d713f55b9;
 0x2642c98bb9bcf76eb3b6e3f86c309b400e79071f12bf462c19fc612a89722b65;
 0x2c2562c294b65505f0ffb6476def69c03e6d1324fd2ed7319368a61c7fc672d7;
 0x265a567985ea221426328919c3ec1bccf462516e6525bee01d1d810c172e88e2;
 0x7fe7a2e56090a75757a54a27a15711c9b7b3451536b61e6a5519a3a073a5a9e;
 0xea63f1b7258831a4f087c53827988f0a5033170186619e513ad470ac9691088;
 0x1d0082b1e2aba35d77b41e3fca46a4526360eae2d1d49d7be6a4498f315be6c8;
 0x17c7b18d8e5324867653d44a765f34f6653a43d2795b040900a2e0b4c03baf2c;
 0x29e0ca8dc73ca2f25b4dd5c756bf5316b25be6c0811e62c2f4437fdb9a7e278b;
 0x1f1e7e26201e619629f66ae5a3c2e09acde700436c22b1ff505280a62db0e242;
 0x2fbd789305950579f702ba8777534c2708028a7845173f13e187752cdc5d98c4;
 0x2abd9e16b7b48289aa19cdfec726fa3fa15cc1625102ae511bca45f39d337e9d;
 0x2a88c6c0393f56fa63e8e340f708efaf40ac4b85b2ee681d39ee1aa0dfe396e5;
 0x20a321497aa9e78f16a5957492e3ea0428d22442056649de52d115b1c73b1079;
 0x1f00d5da2a0498a2c1341f1698df1a0780c5169111a7b02fef79b0faf32d6498;
 0x15f194a187cba501891864984a6f52cfa2d4bc63ba2a35f61489c70cd651e9b9;
 0x5cd85fe0fc0c75c027f4e3f1bc62872153988eaa0b2ca20b0cb5e7fa3a687e8;
 0x1ed21eaf16b3d661b44df4003cb3636184353d25def19bb04baca933a3142e78;
 0x2b37b5e88cca20d2bb43f1718091b40fc1ab0ea7350f77a5a0ce905708bcf2df;
 0x232c7f2de11cfe7ee3c4dc933a0bd034b32c9979b48e2ca966c6a6cbceb82ffc;
 0x974bb70523301360dc181faffa4a31da9c89a158d446cf9f1d0dd078d681a5e;
 0x6231c17adcde68b2df5512d5137e4207b5ab127b989e551710a7cc87562fe8f;
 0x2694daf5d67e6751c38511d595f6ab520ca299dc52eea4783a1c6fbaf85e843a;
 0x2eb55960ecababf455a49b9ea9db9801a47ff818217381b791b546b262df5836;
 0x2abd9e16b7b48289aa19cdfec726fa3fa15cc1625102ae511bca45f39d337e9d;
 0x2e375ca4dd0623584c0be2078652c7e0f1999eaf84f80e86f6161d129ce76f8;
 0x206f7162f5d7700b7cce6981f0748ba08695dcfa544eb1a903207220febabc67;
 0x176a8b69b12a5a3269ee7ef982044b9895baaeb85938900d7ef35a89f93b879c;
 0xc58b1d3319260e528cc712e2f2a6c606d711cca0b2856a30f2ebbe57d5fc733;
 0x19b13e16ddad7823e970721ebfc7e4a7c6563a7e3d92de2135873e0e60e750a;
 0xa4e8fd444448adda180b0c6a3ffd32026f0644911a7f4ff85797d7e834fb383;
 0x18be2ac266e3d98839e5efaf7ef5f17abdfd6b6fc729e1f18d834e9a383bab83;
 0xc56583074bd6c3a67fddc94f840cf7b97b35256e00a647bdd7f992e731eb61e;
 0x28ab1c80f8d8221dccd8818785b995aaff05e17d4fd8f55664b3729715f67715;
 0xb886b2ff06d6d3db570b2060a95b75e3a085d74c6ed9dd8c4f96065ab77c5b0;
 0x841d7473d45e77983a689c8bf384015f323838d32fe65cb9991784db323e25d;
 0x1c1ee3b1346ad2c298b7ae7d837d8cf98af1cfb7a2af5e1d06f0c9a826ab1bc8;
 0x2abd9e16b7b48289aa19cdfec726fa3fa15cc1625102ae511bca45f39d337e9d;
 0x11e7a68f1defb47369a757ad1d47eac4fd12ec54eaa4c2f3a84e2b97e56697f6;
 0x2386b42cc098f278197163ea21b9f6758c7bf1e8a97fc99d0d48b329c908698b;
 0x2d1e8f11167a3889b194c794e8566bb92d1c622807fc519445bb09a92c10d11b;
 0x1e998707bd13625c95c9599bae3261e67f2d517f78805aa50356b8a5e6792427;
 0x1c6b72fa7c47168bc0c13b70af218b5f37ed9977f1903c64c6b0317cd1b5f738;
 0x2f50f79c2c896a12658ba1449023f04c4dba2c68e327ee5796e83b6cc7bc7218;
 0x4b15dbc180b8634691f763a02187916b21f6a9b230302cdb226c9c20b1f56bf;
 0x23c08c77cc0ed597c537ad1232524e7f9cde922aa3b9acb7a8e0eecb3f09dca3;
 0x246b55cb9b404e710f5430129208fd2f7d1c3b71b8d5d1a3c954ca326fd3e7e0;
 0x2a3c7dcb7f8fa6097e5c00f781f27f884c76c6b7ae85bd0a71ce537fd50388d8;
 0x268e6eb795786ecaaf037752d214a2422ead74f48d800ed7f14f4b174c53f76d;
 0x5ac3952618af339466cb8428c30acfd937e76257609d299f1346d72f87ed82c;
 0x2abd9e16b7b48289aa19cdfec726fa3fa15cc1625102ae511bca45f39d337e9d;
 0x1b2b7aacc25b941e4a03f085a09a773154f908b9e5c2d20d3f67779ca448896;
 0x22cdca81e323db126eedc2d331697df5f2157d052ec4f66e69c17307bdd15692;
 0x267f9661ee6cfaed2fd4e4c8140c3e168d16232fb26a3c2a2517b6a4899dc512;
 0x10ce863d93a47aa85b421e17c96dd0b05510418e41c576b331770a10bd4d0baa;
 0xe26a35e642d56208bc813191e7980bc9b8cf0044ca564b4ff7d92f4a0410942;
 0x230f6e95f170836c89332e68f4522dc26f56be6fb7079958cb175770aac34fe8;
 0x1838b36fd6f0d488d9d7029a50a8520511aea9750ba69c8a7f08c711ac5f9ca9;
 0x4f19bf00ae88b7c9ea78742fff7593867760fad46d653ea407726b452cdc403;
 0x133619fd5268a1c03b2486e0a7a1ab4e8b83eb2540c2b9f02159c3e487d19602;
 0xd6268401cc2509a633dce917407f9a1b569c6f9e56063022183e4be7651a006;
 0x365d7940e1c53edea08251eef9a5529c9337a408926ce27f35d56389f2d0d63;
 0x125f88039ff7e0df7f265d09018809058d3e38c77907985c4c87c75d8a76f515;
 0x2abd9e16b7b48289aa19cdfec726fa3fa15cc1625102ae511bca45f39d337e9d;
 0xfa21fe3e0314d2e7486a95e6feef8d81fd5fd1b6e34a456054787fd85453e68;
 0x2951984c7afbd03db22245a37d1df055eb109e4ac7344127f2c35dcfbed8e73b;
 0x156bf5310e6b76a3cc65f74c58593ff14ab052dd9d0fc09abeeb4a95fdf0de19;
 0x774fe420c3ab105f6dfbb8eb0cc6ed4f5a13299cbcbfa9a6e20d01ca5f834eb;
 0x13a7f1f4fa81d9e5e24d6236110fd39528fd3c216f0dc86a0c79b2c438470649;
 0x1019d2e8646ed7feedcfc77169f5e9fc2dd718dace5f6f8b9a67637d933a3041;
 0xc63653fc5eef7c50cde7d0c3856f90e2b0e0fcc9c5b16fcddd1e9740faf9b00;
 0x1343f7e28ede90c999f7312542d0fc39d1bc0d3c656440b6e170a6f3bc35b0f5;
 0x1bccca2bd0880591b20d5501ca0e4134c926c5d0d97bc70da24c4c70dcc61702;
 0x227006078f001421d3488f1bec3e70a69d8a51480ee878cfcfa26a8caafe9adb;
 0x2badd9b9334957d41b28808cceebe3e3c55807bbf4e7d1997d8b7a71121704b6;
 0x15fca0d19035e164f8fecb36822f26b07efe12ffb2d831c48e5ea9cc8258b755;
 0x2abd9e16b7b48289aa19cdfec726fa3fa15cc1625102ae511bca45f39d337e9d;
 0x2316c328984e3a8d25f2a26fa5c8d29f762f70b66fd648c7df1248c6edebcdd8;
 0x14f86a4483471960a505e400b9adb874961582c40ad4f306ee61ca15f769db60;
 0x22448cc6b58101c266b94849c276c0b469f440cc5699098228fe293a3e15613a;
 0x9e98ce02891c97faf65620ce63a9279fc5c0ac4b7ad0073a03b8ae8951620ab;
 0x3d80d14e85f09ebe6840f5ac4f467568686cfc56acef42550d8d8c33677bf3a;
 0x3d857a698a64801730b3c11467d17cb8568fdb626cbdcd5a5586912e558c022;
 0x1793c7b3f75f911d0c7f4c64b74e7a1d344a52438774d42922a245fd55cf10e6;
 0xeefda98fc56b0b2f2467ab429a8e513b5d4ffca2b9355de8b8ef645b14732a6;
 0xb7efc4302f68263ac68294dc896062831725e4bdb1d2a6e8da2572aa4ff8471;
 0x2c4b370a050627bca60b267ee3154f0706975b6cd9df0fb5be76162dccd293c2;
 0x14b35f50c4e9103a3452cdc68fd4db02677bfe9dcc9d7619ef62197878176588;
 0x2e598155fa34aca3ecb0e66e290d99b9aa080539f461e9734bbace8c72bf2c60;
 0x2abd9e16b7b48289aa19cdfec726fa3fa15cc1625102ae511bca45f39d337e9d;
 0x2f83ce87bde779865b4ccc5eff39d9bd2e8bd0ecc9c2cdea49ec7472976d923d;
 0x933a19319eea25c52f096207f6d8a2ea91fa531291fcf80436ae6ebb2ada32e;
 0x263439a31e513a82bd9fc8ce9e074df4e27e59683382019b7679cabe55618338;
 0x1584ecbb64a4db8dd2d5c4608ed26bda0e0c38c1130b28cc6c1b4308dcf40e44;
 0x49e790446ad72623caef9bc50395299d0221c2781686a04415190f52b5143a3;
 0x10b37775f18ed958dc5dae40b445b28b2c4413b5ffd672491334bc73470274b0;
 0x24701d4ce3d32060677e07f1267d9f7e55d4332b56379700ccf64ee9d57d1e11;
 0x202b8fb221cdec4a092a035d4e454528eaf0b319d671e60a063f4c0724cd8c15;
 0x1d43768bfae552891485d63ce8e1c3eed865af9e608b31a925f4a31a98675866;
 0x32b94736117256d76b6f85a01f3aff1e4d954eaabc9a367b61ca0d8bbd42c37;
 0x3231b4434df84936a826b7667aa33f161a86607219730bd78142eba4bea0dd4;
 0xf45de5ea90165e3da111af4a7775204d4ac83dbabe4eac41abf318487b1e996;
 0x2abd9e16b7b48289aa19cdfec726fa3fa15cc1625102ae511bca45f39d337e9d;
 0x2ca2db65ad224b51a8b24e8042cdb875693897fd5503bc751d888f695d9607ec;
 0x44928f5528543c7f450eba9d4cb5db7e58b8081b98c7f752162303a16af1ed3;
 0x2733260b5780a3db7cb63e4fc82386491a217d4312c7a93e54707894e3b20da3;
 0x24f726fb193e627cb10dee649b4e3e2242b94a2524974242835db3e96befff11;
 0x1e38f6d8f6306aeade802545000b3da45ab90c9bfd2405dbc765d184b91df08;
 0x8ad1a8e37ea4e152a07cd69de6b60e41de49ad1047fad9194aa32849052b8e5;
 0x235d4b4258dc982dad9cb9a47a963088a59fae5f730093f1e9ce387abe83765c;
 0x2b01da9199fa4220f95e00c98cac996d65113f5af19912cb331c53f9c52334fb;
 0x1eda45b7f8edf24cacd398e7444437e30670bbde613facb9f1e4676b0d3f3d32;
 0x119f815c307628877d5e222bbbbfec68834f7b1338bfa7688adaf8c6e8c132a8;
 0x5f96bf0532d7b9065530d4777fa98b0410e5566b6b048b85cae029cb0e497e7;
 0x340a6c3788a26e7492b9d20754d96aa10ec846f07aed7cca49f234d45988d63;
 0x2abd9e16b7b48289aa19cdfec726fa3fa15cc1625102ae511bca45f39d337e9d;
 0x2515fb66f81792d13ff8bbdd5c038ae895a028fd5527645f96496ac910d44e03;
 0x18dee821d0ad52dd6641fa0289b4ca755a70a603c6bfa5bd491ec55ba7af13e2;
 0x3015c688b294a9657c6ca12c65b33865b1b79556838bbe3f4bc1af83c1e1cc8d;
 0x14fd24e81aa0eed88a08b4ca95c08addbe4ee861d173dce5289aa6897d828128;
 0x19d02cb7110cd61dc1991b925320208985e0f64fa145d3017537470c77813deb;
 0x496cc3972bd13c9f0dd2715a9cc66b770699b0832a8248334ff5d213c5a7b12;
 0x528b341e3531d9d48b0a65c5d6316d2fd21cd8801adfbf0050e0cf6f0f74553;
 0x388cd95cf4d04968d3443ceadc7fa242abaf4eca59961cf3c850efb1319a4de;
 0x1e6588c7ee49bb4547504a62550304ed4d3e5affa5ac8f08b8c0cd0eec44dd46;
 0x23d611ae14db5a2638609c8212d29f327ce0956038039f270efe1a10537363fb;
 0x2b86d928a54b3f7c987dcf5ae89d7de994331f200381dd09d12ecb846a7a9b12;
 0x13055b796975dbbe1e5a913a59c11ae296ab60bbe64202c15d4d6108d086f462;
 0x2abd9e16b7b48289aa19cdfec726fa3fa15cc1625102ae511bca45f39d337e9d;
 0x14f38d1ffa510f2b0332476733f9fc5c79df981b55acea4a8f0e3b4cc61dd759;
 0x1f312d4d6d9a3ca368e3dc8912bab32366d7204bd0fbdd3ebc577d3f26bc407c;
 0xd0f712e8570585e196ca13e8b1f1a2c963063f27d62427af9eaf6aad438e723;
 0x2dcbc4e8492001dd99dd80175771d5bdbb308436faa08e39f19b4dc21828c131;
 0xbbfd5086b33a2f0e5afd9be44f7ee3267d62833ae3019938c440d756a24588a;
 0x2e11c7002202decd43434c9730452b8ecfb543cd892429fc88db33c63c404387;
 0xa04ca0b4eb3a67bf9f7b699b179d0339883792d4bf4800802aea15318b7c0d0;
 0x19004be334dd838c3cfec0528bfb1f91db2d10d7d3d3454a5cf35b7f431d9f99;
 0xf0db552b704894427ab3ada1a9eb881506e592325b73d7ca4bd04002efbc259;
 0x1a1e713b1af5f35ab4fa7f9bfa19b0980ee21821afd1ab3445352cf784b8d27f;
 0x179f8e92246a7a24d55045b43b515200227c4be9e0087db3654a34db445d89f0;
 0xdf566626948128c150102e68c71e6cc60d52112b96993a1d15c43f2aa2d0d5f;
 0x2abd9e16b7b48289aa19cdfec726fa3fa15cc1625102ae511bca45f39d337e9d;
 0x242d3b170212915d835e974b8f24c64c866611832cdf59aea0f9e9269dd8f615;
 0x780ab3cb7bf3cfe1cb4fd742ef1dea1daf725d4505f481c9089f9a6a1aadb10;
 0x224f1cd253223cd87977be41be77930bf651ac744d3b362b302fa36ed0f6c37f;
 0x4637e287df2d94786d07580a457013d8d54a6c31418d3f3ed4cfc582ef57154;
 0x2d703aad67bdcfc9855e65f429a8120ea93da66d877ebeca1ac3b1538f2dd96f;
 0x11c9e9aec8fb7bdabbf3696cdd441207e1749e0d8fdfb21535ef940f68e904e7;
 0x2be2aaa990f638dcd8bed18d9b76465b1f326abcde1ac1f3bb907b34c6029c27;
 0x16a6ff3478e400876366dcf2c41671f4ca6cae21bc985f0493b4cea2948e83fa;
 0x2d5c1ad3358720b486ff21f6ec096377f8564a544f54db36e9fcb540933022f5;
 0x2706883c34903b26fc209d59a13cf12ea7513995f226c80e6eb8fb69ae20bc67;
 0x1c0cfdb4290fbc3c53be1bed2a7e271ed1ba5aa5f372adf67132a8e53d2cda28;
 0x5d00b6e4b2d0a2d0067e0d1ad30789c2dae657135d627485a6e782c8b9ced92;
 0x2abd9e16b7b48289aa19cdfec726fa3fa15cc1625102ae511bca45f39d337e9d;
 0xacd1175f3984a9e7cf08bbf5c1777cea1e7256defb95b191ad3d868d8092534;
 0xabffa5e8d3f345572069d11f25ad4e654e8006102f8d4759188a07201b43b95;
 0x3c0a0138dacff601c9d0631e83b8970db14ca395f83cc18c7a64db35eb6328f;
 0x26cca174ba7d6ee3fcecd1e16f868bcd4228785252b2b7de96fefea71306d5d9;
 0x15461d04466499fa137c5246d7c65ef254e24fcd50b5d43ec9d5e012f89a4840;
 0xba61686f2ac1ccae7946a24316c258848a86659591468507870c9983c272759;
 0x4017df4afcb1ba3116385bf4630e9cff49539b1ccebc1f4942b5f43ce3711d9;
 0x1424d70cbb9da7aba0be6bfe60c6ed4310efdb6c0a7389ec0c17d4a6e390ef53;
 0x1b4adfeb3a81ffc9088ab0cc532061a6d3e88830178f3771dcf7a02534532e8f;
 0xa12244e29cbbc56d28f49bad8f18c3bcdbe95681a7b84889c1b8f356db69c17;
 0x1d2798cf1798c27d89de5f07a9da5e45553ae27737020e51d7f6d365bad0491e;
 0x99921cc276f9a00e458f09183b359359740bcd453f652fc0e6f6c9a173ee5a1;
 0x2abd9e16b7b48289aa19cdfec726fa3fa15cc1625102ae511bca45f39d337e9d;
 0x1ff1617e14011200242d96c976a9b73585ccc1103145cf23d1e2b922d03d5d6a;
 0x2c20a2a5dc3bf0aab0b87093f9c0e9ae5118db1173adf4f5117b33763bec7b68;
 0x1a5f9d44d0d30cae600f5592492ec4d112e9c0a24631d4b49f6e14ce69836859;
 0x2506549fb4f1fdb290bc61f697719b418f146af1cf8d61da1632e293230e302f;
 0x19761a80b065bb3820ea466dba6f358637f3a298d986e9a5024a8701149ec0b0;
 0x23f6ba2cafacff6a627f60f1ce6dc5b30a4caf64f4fb21c226d4c2d847b841c0;
 0x2e6f1caa062248065f02aad7120cf91d3a9c29ff5680cd4638144d7f2ca95e97;
 0x28b3b74cb98af781b0f5344c7d8526ab317280697e26d8503eff674cee5759a1;
 0x271858d8121deee03fc457245a298384b9a55b3a8359a7190ce8bd23de50eb84;
 0x2dd5829605b8e77bd72dc4ba2a12eb8a9aec46c1d253e3a8dafbceaff52cfe03;
 0x2d30204a0bede236a8b41721ec0376629eb558f6bce9a69e6a93a89af0a637f;
 0x2a6e862532fc598b61ed8c490ace702e5e92ef403111f4a9888e71f058b9883a;
 0x2abd9e16b7b48289aa19cdfec726fa3fa15cc1625102ae511bca45f39d337e9d;
 0x8496e866a25167f5c61f388550c49bf6639d6394274cc49d136a8ea4aef8f04;
 0x14e8da7feefe3d716eb940bedfcb7a3f6cff1ef49e459c3d1d0df8d9a403e1de;
 0xdbbd1d73459a395ddb33c120018d9692897578dfb67ad660d628e3a46cd398a;
 0x1342655df63fac44d438d6f4a1b1288e693cc3b530cd73b3eeb588e8f2236cb9;
 0x31a141b9e2cb72dbaa792b5b29c8a7c748c5cb4f1cd6f5c0568861265504f6c;
 0x28f97968428b8a94432861d7fd12313a084d3c7514886fa6ed30521e588088b0;
 0x1fe9feb5c7f7c7a426bff032cd6a3158278b6c6b2cc57a871213fcafd6427989;
 0xcdb2db9e4f9d732d217c5e3114821165d49e5a2d41556bcd53d0c4d433224c;
 0x9664216ca565c1a44fc2b98347ea8b36904b3877f2159dcc999895adeb4d70b;
 0x1463f51d4a4cb1eba16dbc115566aa48fe77b43c244c9988a3c658d2f56493d6;
 0x214e41788bd2b990347c7f2a8f47612d4dfceb1a1e6da38165873df66ce51f59;
 0x548541724f64e20128260899abe8fbcdff184a1957a9385fb715923bf0fc79d].
(* poseidon_bn128_constants.rs:1840-2415 *)
Definition bn_c8 : list Z := [0x123992df3b9daa65139ec13fbb52f7d348e134333684c1596feb0e8d8c3ad596;
 0x2fa46f5dba9909ce9984a01e2af30b550dfec978be92b49119a3959c7f623703;
 0x21d8f94d3bd98f0b63a7aacb175b2cca13b2dd8a8cf68fc36d94ae29401b2d2c;
 0x1a8c06c61046e0f8dc6a39bc57aea0d07fd7db34e68f73579da89e116af87eb8;
 0x298cd7046f58c0cab77523a58a6fdfd1401b89e7ae5eef4994442d167f7ad1d3;
 0xeac737966715df4a20b31ab693eda86a07f3e830fca475a6574d67fc5f19f63;
 0x6b9b718bb3b6d45e0cbe6d5d9a2f096a77beb056821750d072262af2a70a33e;
 0xbccdad6e8b1fdfba846a9553fc7905b3f96e435d653eec3972565e1fbbc302a;
 0x1b3ff4a6bc8490993abb7a002393cd1c1c007f49240ffc2ae1f1057cfcd8c7ad;
 0x17f0c9452d70eecdf5cc8b6b0b205ec2da1de59750d6d1709751831b7e4ce26;
 0xcf1ab805bc47a10349ae77135ea95a4144a6ed0718fdeed42971c160791b269;
 0x18dcacac61318af644ab0f2e61ef48c29a8aecfa0282e9fc325b5c0287103ce0;
 0x16fbb3bdf4066e2b2f050b89b685d408711685db7e4638dec90ab1cc794350fe;
 0xeefd0b8617a1ecd7711ffd5f6c4cd0496487a1b1146e9f3d53275af18fc6c6f;
 0x3c707d1835066fa30e7295a097a6ff463b85b778ca11d9bd2988d41b600aae2;
 0x63ad3f6e3f8443e0908af99ce32d2c09606e84aae5e3ad30ed60d7a660738cb;
 0x2cf67cc9cd3a5313d992e315010d90cb501f790bbe35a166392a51d90d117353;
 0x2a6e7a7bf7c190d4e4f7f258d890dd41780e28f6b71e893716f70140f4406b34;
 0x26140420009b6d8c7314723e66925badcf98440da6c2b97b66a52b98cbdf1d41;
 0x212c611149d057b2ffefc9938ab1498d3b265392c73480b9cb02276906e445ba;
 0x8918ab686c1a160a55db12010b20150f82632dd5933e27cd01129518cd9e952;
 0x173ef7767749a3249b004eac7aa7e94dab20d465c65ebf4bab422f743f17d8b0;
 0x49d90fb549e0e25790f5a6570755c68c13c97b18d67bb9199dc765355fcb1fe;
 0xd1aa7cfe6ca9e048ac6ce2cda40c6d64afbb8c15a7cd9e0222566f9922a1547;
 0x2d82e2ccd8bd63b2ba44bc0f4cb5ec88142a4408acf1dad452a66e8219f667c9;
 0x2ab73a842e0bbfe229ea1154bf8aeb48cf2fc289b939471d6b465b7202eb2354;
 0x233f36bb205dd59d045310064408c6eaf710173a118f9ed21153c99a6b0783fc;
 0x18c14a50595b8df32124bf57f8b8df430449f35986242a2ff79a644f510cef27;
 0x186508d6b75c7902ed6a1948f91088c7cddf973d8cfcdb4e5a5b0cac6b5b22d0;
 0x10bf42990104c39b27ef0ba451b510cbb001f8ec39a313d259be4309d6429bd2;
 0x163e875fd9e04b255971072c0d2e7614ee1f3c7d2b93799aa1570bf73153f3ac;
 0x2925a59f82c1472b8120988e3af6cf24c2ebec9a9f0f830bb5c826061c65eb8c;
 0x25caf9ff6543dcc34e2d0b8c2af3b36ebef3d4c3fe62e2937ce590a38df2da1b;
 0x14cc417fd674083090f4463f66180e4a3f38ca5ba87f4889e510ada924f6b799;
 0x182550aed7fb3b7d92ef0b91f4916ac7f7db3b943103ae7ba2e09ec0f4a08517;
 0x216305852467475a9f934d3b1132a99642fb79fb6bb91d948f391ac9e1c3f1c8;
 0x423b771f7215716cf97b3a72ccffe156bb9f8097c77a2b6dc67bb5848689b8d;
 0x2247cd5af8b5ce0a983aede949f81dc7d3fc5a2cbbeb8d16ad43fa2c3a882537;
 0x4990ce49123ed1eca92df7bca2b271d07ba4ae5a30c6a0119f77b51c3643d2f;
 0x64e8bb29cc072af727af1b79af50896a6548dec41bac10f0319fbefc1bfef9d;
 0x5f9be83351a037f574fd0f54d4e9ae5cadb930ceb51c91b07894f0160f8fa42;
 0x202ce17e96cb24e8986cd09351ab9576d5a5167168f9d5f3877c4c5ce03629b6;
 0x98a2fb5cb01868cde6424c4211b9549b8f550a7f03e7fcd8b5121516b3f452d;
 0x2cbd947e532cda0f8f1b899ffbcdd5e0b6b08451e637fe53f3b4a8ea7832aa27;
 0xe0fa4620cfc943da81b40b6b42f86fe74e55900f800645ba66137b6b7c728a0;
 0x2e1ca081c96d5abf2cc40b3797c38b0ae8a8ef5d76e6d03e9bb06741c2184123;
 0x271cf3ea7b06b4e743585ae68997c0143542e405c70855787181163e4ac20b45;
 0x9dea127972d2109cadb7e96abba7577c0ac0077312b9550f81b7716a92f5eab;
 0x1982cc716da20b119525c64a3fe85f5e31baa97c76c82376999637d8ef1c8a07;
 0x226600de8bb65b38ecf996e5bb26fd6288c690f16a5eedb730d939311d0c3ff1;
 0x20f7b77fbbcad998e7744ca27c0f7c0c2550a3db90fe28944e73d01d24ae6cb;
 0x1c2e445cfc98637aaebc2c1ab7b6d790ebac5027071d1057a945bc90437c49c2;
 0x244b349502df4a33563b30237ee750e79bde135f0b0896f0d9cde04f1004171e;
 0x10860a875d80bd71c6267c1d54b02fb58c890b1cffc35fa707fe6a94941281cd;
 0x2eec5addecc4e24650dbbea531a0fef0dc327dc694f229b2526d2f30b2c499c1;
 0x188bb7150b6e40624b02ea2821aeb6b52b1e85b5b724bc0ec512f8fa641182ca;
 0x5e56007dabde2cc83d498371e99ada953ecd69e135ef0204d2d3b6cc1f49aa1;
 0x2553755b36de611ed557768bb5513731474a0a8cdc6dba8f04f3031b07687b16;
 0x1cf267dd9bfb6e678a82c7745857a63e2b57066a8626b52c0fd5ff42418aa65d;
 0x106b2a40087375ea2988b8e0700fdd71d3716af2bfd0b6b0ca6e24ab4b4c25e1;
 0xb978e4a10dbcdcbc7e90aae2ca19615df674819cb611d93b4cbf5f2ff9a0a16;
 0x2ed68ffba6a646e5047666b8ad69f6cb35ad096d6d34fe1ca67e532b5186bbf4;
 0x23c632c2fe68d4f0a71b1ee63951c72b7d349797f07053df2ed33520ea3e94cd;
 0x27fda5f826ce6a8340d12a584d4b9c84f0a4ea3c9d33eae8d6c0e23a5a9897e3;
 0x2d24aa4c0772256e90344d20d46dfbdbb5e9dc132a4fb07faf8eddaa30da7674;
 0x48d52c4e3d71485ce6af122ea136e60053e387d77369eedf8d9bbc663fb98f7;
 0xe0c1f005a1759dd161302fdb233cbac5fe151b5c2192255bd757b3ced899f92;
 0x230d641c4552e5e55416e360eaa32900751de5ca53e8654af8d422eec627efb2;
 0x2ff6fa8364a8cfb19e30be87d4cdeed9f957dd024f8138d535c6380a8b5d38a;
 0x1689a04762a5ab1388f6a7257e7c72838513c57da7f546a2017ff128afe16171;
 0x288d8c7325204250e8632f42debee8a31a470312ab2fd00afbc7694f95b827cd;
 0x23996135af9f3a42a6db33fd55319a7caed8da2e6e338068d78f5408552c83c1;
 0x15d052dadce14506fccd2690c333f8ecac382d2b6734726236cf9c7be278bbe4;
 0x1494fb65e5993d96c30bf0bce3f56dce68a2de52299b4809cc119e37d8e042e6;
 0xb800ef8749f91b307947c581095ec9283c3b131be5ad5bda4200992fbff053c;
 0xbac1f53d5a7d39811bae7c1a79dc997fdd5f1270f72805fb05f5c52d77c1cb0;
 0x179249893fa86ee067b47bbe8335b8942bc921ae0e082c303e32b809d939786e;
 0x985a7c9b42805d910a89e2dc9563e7e3449fd5b401ff4d5eac75dce7fcb420d;
 0x2c1905b5f00c927a57a154c474427e31f3caab81981d621fb7fea525ccda9bfe;
 0xb23502ce04c0f4cb30c0bdb6c4f2a4f81c2ef223936f07ef57856f0a9bb4f70;
 0x2dc051c1bcf637233ea7c5e086aed7dcdeb51b7a3525820bdd6eb65e578519ba;
 0x273d8a4166dc3f53b1ff24c61f1a3b3007a282b526c7239eec81e92f51c741ae;
 0x257988be7dc257a0c5dd7078b72f692c755f01ba3c8e57d82d9b969565dbf0fa;
 0x213d0fe5a3e7608fa602f5b5ad5b8260654445ebd72492a32ad3991f3a5a6218;
 0x7a383e7a221bc76fb14370d4b3eee8de502601a5e4d54b3370c4c502b097a8a;
 0x18ce7b3e647ce9a3a90d0ed9aa57eb9a895d596a54958cc9702d8da219623e81;
 0x12320ee10efc1f8118d3ea697574eae2dfaf8f29c183abd123392e3c2829900a;
 0x93d0e1304c660fddafdb48295928fb6a83114827566cbcde26ef4c87c9fa89e;
 0x2931b9295d96e5b97364b37daefda7dcbf3dc9f48ab3364da9dc6a7234d714c6;
 0x1f533a1e4b4878c2fc2e9706e541d28481ce43b1627d0ba46596906cf3281624;
 0x2517cb724d12ee6ebfa7b4b0d25cf0315466e98d8cac3ffbfb1a1bcdee0cf064;
 0xe43dc983bc8febeaad40130444ab7f9187185624149a7f274492d9bd8389ea;
 0x186bc09a7ffc4edd291579876b77c2fd3eed0b1b83f21ddfb899039ceb77f379;
 0x5d22a2f48f64658e181b8ae5e72e1a942796af2bfe6ef74ac9abf53ac65eeb4;
 0x1f006e8d2463636bca787f765fd6ac723ad2c2e466ae6324f5d39f3eee58f0cd;
 0x28913d42bdf680478ffd17374e895fe7799d9d100196f6ccc30dc08f39a479f7;
 0x11b557c8d7e97bd99ae5f49e823308bd6e22694225d4029dfdcd836cb7c0ad7b;
 0x744b53926e1a0ef395bb04908b13326ae1866a68983c41de56fb7cc7dcce297;
 0x2bfb2f2456a70989b165fb6a3ee6f944d28362935cabe516114980f141422a03;
 0x3027047944ec82cef6240d1637070c622c5d28a74302de0efd6d4addd4dc2db2;
 0x1ed0b5e4b29aeb0b5b3eb128cf031759cb3bc47cc1286657cdfe88c5c411d4a2;
 0x263479ee77e44e8b2ab953e82ef63a7e4aff48f0e730f4782b225cb22777104f;
 0x19904c84e55e1af3147cdb7f3a428265e20c1bbccbec2a5c8b950417ca2ee471;
 0x2fa8468fea3204ed2a934a1eef7c78580a8da30c5ec5922fac89ab92ad81a3a4;
 0x267c0b4b19662cf09b870e05f7441e042e5b962f73dfd78d23384dc7ea71afa5;
 0x2f1504675041755409946e8c5f5432d35849ba7bea0d12512547ae684b83ac2d;
 0x204199d64982f574327ff3f400705e0a53b25d59ae91ce0b9d31fdbba1ee2b0c;
 0xa087554e5511426780e457757c175cf6187a2efb9568a3d390d3a51c2297ccf;
 0x2ef9b88428465f535cb04119f518d1c2052268455f1ab145ccf1693be92416ab;
 0x2a96c9f200b477eba78316fc4497e08b2a4384b26c97c7b4ce877cb65ff5634f;
 0x43293e61ef1b614850bc015dd316e2c7c54f12d2db746f7c0cdcb0ec551cfc2;
 0x1d81e0e280611bf30989c1a74088493504b818b385d04d96ad298dbed9a7bdfb;
 0x1ad9cf17b8368d98002ced2cf6ef9385a074c5e3aa0b2e12f4b768cc4804bde3;
 0x19b30a27119ff50da2734b127ab83299a4b099694c31acc182ab453fc000ef95;
 0x132d81f00bbef2804901c4073fcd9c817a63832c30d653063f67fd86482e1998;
 0x292ea3ef2313863a1276b1f0e4973fa784dea78a1ec98f4d593947f6a4e73924;
 0x28cfb5e0c41b0c77d987e737a5018787079f2ffa650102f2feb735c7d9bce84;
 0x11afd75dc84353e2f9c2f05d1f3ca734eb45546b92396233a3f29f4e8f6791b3;
 0x1aaf43ed6da39b453120bd0312f259294ea101b678dff427843c0fc816409ed6;
 0x19db09df83387b1e4185cd79400609e79f37e5a4658dbee0785dab5dcce32868;
 0x29cb3dcaf2ebb0f5b0b949e84278fed2d11db8c1fcf35e38189afca16c0cbfd;
 0x2881df9352d274f0cfeb55df8ffeb1d0d81fcdab794082e2107e1b0426a730a2;
 0x628a0f9594c159206c7627a8f10748a1df2ce582b7604a8e64a7015ebddb65b;
 0x22657393eb7ed9f4572c22cd7b9d5134d1fbce295c2a95f1afc6441de60d7fb8;
 0x6325f509f0362714c4850daed8744062fcf8098608005e7d08b509bba33624;
 0x171d6498b42b39345d56e8661ccc2b576ef449b1f8e5bdc5ac72d9f93dc3dd9a;
 0x1be82f3b1cc9d849595d85e3398331186b6e4b4cbdf43ceeedbf04735315a8d2;
 0x154711be62f23cd46086b9311b28eeada8d26323f8864de7e36e5543bcd7a38f;
 0x19ece5d8c0b6cc07fa0119746e7f36c9c8d496ac1e1d95cd5bb8d769a6745cd8;
 0x26d6162d8d9c9c60244cbcc1bb78814265fef97a53a168c62a43b9e6f4cb2d16;
 0x28bb85fef9f65884e4a99a63a59a906d586cdd88bba7c51259b1fe6a375fe4af;
 0x267ccac1e34271971e474179c5800526ceef2f1a6fddaac1de2299e92d9d8ce0;
 0x2e6b4868d15390d8014248eec0c7f10d8ee9eebfa64025f961ece49a9ffad985;
 0x17039023ba24e37bc4cde497e95d134ff35dde6fe093ed788e4839d2bcecf840;
 0x214455d91fc747c6aa9908ad92d19b2dc75a84651183dcf43b9a256320c33e57;
 0xa07405f036d30ec77ec64b034b9fc5df2cff5877c3c67b7ab23b9f2d8dad2a4;
 0x29f6807284b6e435ccc2fc14579baed0a60617e0ee33a358cb316811b3d8864a;
 0x246894f6071fc9630f69187cb5ab506c05084114d2efcf231780b5d4b5c4a0c6;
 0x4224081b90a67774d15ff98e6134493c01926f7ec25053de56215c145e5da67;
 0xd99cfe7649d1dfd292f11773bfff1ce3645ce4212787ed369c0a06b602bab21;
 0x1fc76023333ba4dc0f2a8dbafbba1bff33b753fd77e6b1bdc4c796a031b7815a;
 0x2f60e05fa1f7446735a3717a9d73728a5b20166537ffeb65707e5f7503e8acf3;
 0x1a2b7508921fa054f58ca4d6eeb133453663c8979d6216ec9ee1240b8c894e80;
 0xa0aca4924bea6979a56e47af0bfa19c1db7d756bb4aade0a58e5bddd7ddcb4d;
 0x262a2365cc780f62557c854566fa2c8822e6fdff8eadb90949faa5abd63a7f82;
 0x19ad5a882f1dc4971429545dda3db1857b1ca0a246768b3a2b0014ba5a302439;
 0x261e3360fb23c08e87b8f588bd59f08cef07bb48a6f1226a64cdc7d4de7e95ca;
 0x69cc67cae46ded18fdc725c9cad9dd64e445c990271b0e2d2ccc42fdce0bf59;
 0x162e21896c8d1f6c2b7ec16fb7ae7ef8c8ee19216ae189a6ef2d7ebdb1ce62c8;
 0x128d42c08444d8956879995a105a336c4248ff9581139122ed9c9d55464ee9b3;
 0x12e9391f7f131f13c39725c4414669bcc64c7a41b6764e687cee8e507433e3e9;
 0x1de988e46c2c9a1c00d85dfafb1da7509bcb36422aab6052fd1f927df741c170;
 0x2002cb8a779f93de8b44d7fb08cff50828e0771d65011f9954b424e67802cf0d;
 0x28f6e5af2752c79d01a3c6c7d2930fdfb164989c20f905ccfc0982c29365d631;
 0x19ebacb5354f7f272f5c12d6c71b39d89e14aaa4efbf987377337ffa3c026b2b;
 0x5dd47c695cc6c95e2acd1bfc0ce335cb304a3c3380a94e8b7c070682ca869a1;
 0x246bc3c037a3c9ae2bba7e73578b1a825e1672a7418801cc0743954534d9c0c7;
 0x1b7ee255815ba7020f0cf78ceb9860815c0eeba268a72cecf9e3fd1a6870b3ae;
 0x1ce04f643bc9513316211fdc0bc23c9a52bdaf4bccd9ca18590c1703a2d120e1;
 0x2e3a6532afa95388b41ad59d7c2705445d7ce10c88d73411b7271f52ed4c44cb;
 0x1f91121f2cbd1ead2f70f4f74729a25723721a895a87d73394cc9c1809fccfbb;
 0x11082403388a99da0de3ed7d3b873f5abcf71f8bea6e358f5b0f17ca5276d926;
 0x3962a691eb42cf5ef779bee82508641329ed9eeb7857f1cecc46dc93046e1f6;
 0xa67910e294583739c2b6d18ea5ad74e141bb2a353fcdd93fc3ef83f4fd7863a;
 0x1c20f9bd1323709fda124f71e88901235f44c5e48287bf0f43b45443ddcbae5c;
 0x111ab56e19274efd47392b70171dfdab0c8cef5b6de579de67f579e86b506fbd;
 0x6e6b88e6f0cdf982de483aa04bb9d0fe288ee5863a6892915d125eaed786b4;
 0x29bc59d6fba6d692e2a5e85ba50d6fd9bcfccc57e2bcbdddd65881af445fff84;
 0x261d13ac441b2f30096c1f7f66a6d973244c2c070211275a37d49b1d70340edd;
 0x77f8d9273ffda37ed1ea683f69349715f95986d26163f00d41c9e3c366ccbfc;
 0x1678f9fc6c4502c235267f4b841d9543208542355ed7db420a609acb8e8ebdce;
 0x1a65b41dc302b906fd144a594bea6d909f72fb707500b270837c9a249590075b;
 0x265359bf0ead777264d18dbb4c4664301a23b10579368f40b433710b97f807a9;
 0x2e944ce0eb653745a45632c070b931d08ecc4973ea091e5dc67125cc9045e41e;
 0x27e3025a2d3e82614a4dd0550f59359f5643b86835926aed2eb0a7aa4f06219a;
 0xd9848e0d3b8bc8d43e5e6954e6f0181986e575054840f238cab4cb5b03fffc2;
 0x1ac3aad815d8ec13b035decf67a685496a87b104bf57ef38cda855877fca7c75;
 0xc910186f912eef95fd673ead2281ffd0d5ce9c80cc51f6f931d0c75b9c0a3af;
 0x248b63a76a024d5cf2e42a1bf70a954f01b1849dac31fd545a7cd74c5c3a1e54;
 0x1a71fba60cd363b0be3ea3604a386cd1df466b5e69f93503858c69f5a868695e;
 0x15a2869b6363cd02a472cbcec5c91bfa17242cedeab83084f0eedf28343178b1;
 0x2813c10731f7694540eacde857786ab2443fb1891619243b8d4d9a529a733548;
 0x2aa96905ef42bc1e8452087fe13dc3d55ce94062936fde48fc29f8698ed5ec50;
 0xf093d369fad0a0d255bfc311c4a58dc98a1900cf359b3e7d9688f6591b8d384;
 0x68dbbc530967765cf7c7e69b8bee4ee08d486b420d5339626c8411ca984027d;
 0x1dd0cab71570941ee962bd61dad1cb68a8ed8022adff356a67fcab3a6eaf5aee;
 0x29a857f084ae7f2b506efd6cfb0672d63ae960cd1979f78d7f55d78259553777;
 0x2081f7713f51b3930dfa0a6df8e83611bc8829cd1f8471b7e2e17f480d853c33;
 0x2eea374a60ab1a20648cb908e605c6d8599ba601538635c8ccee00cabc85727b;
 0x1a1b68bd2951131e6d71952233647e4165bc412da6d99c2197aa397d8d3ee5ba;
 0x1defdf14415a78d5e6f287ae6e49ebb11822b8734c9df91c80e08de57b2d4f2b;
 0x10040cc4fd20bacca69e26287138be4dac94040cc6224e2bfdc76661106a7249;
 0x20ce67f32e823b988011d0c33abb0f725be96fc9ab5b2eb71012f5f80a55ff40;
 0x202ecd50c82c9e1c79f0fe136518b22551c058c21b6eece43585bcd28cc4ea87;
 0x10fba50c060fceb989d7536c3692f0c3243338210d145d6187926798b747087d;
 0x2680936e402765dd6ccfdfe2dea719d3c507a7c551123c0f9dd59a58bf8dcb5;
 0x102beb4a5c4c903eaef9ecb0d5794154620d7e9de84364fe0583be79b4de7cfb;
 0x8d01db18faecd1a26c285be65414bf18ab012d7efb2675f4ae1d6f5e1370622;
 0x112fe5d217f33c2d2d19762d286841366ba782b4bddfa33bda836fa2de419010;
 0x64885f457cfafe6ece2944a9a935efdc717affcb4449ceb31a2792d5eea6765;
 0xbbdc371ab6d4296e73ed2078b99fa47d00c44cf51eec0ad4ad0aab9c09cd886;
 0xb9e59b699aa688dd12143e890b6fd0e34800d6b440f5f6b6c426b30ad078887;
 0xa5aa31d4fab8e109b0fdfc55eb14a5c2d9267d7f986b610170ce5543bfb30b7;
 0x3239d50b4a0128e39c7673f2f99d88b5903eb1bb7704c6c0cdd4c31408a7a6b;
 0x11a6945949a182759b6f1da60eadaf2c730cce66ea046f8f5eb781e7c45f8c9d;
 0xc502ff1bed8a68726803e222b87d59074956d834f2d63817f2a9efed3dc931e;
 0x222d9daa384ae2b40e43e274cc07d2dbb9eb6988d03894b6fbf51336634c917e;
 0x1df8fe0dda8e51971b917b0ff0f3e05ed4b00c09545351a1177805c50f6bc009;
 0x222bb8290405c5b3373f1b199969c6d0f9ba8eb772f2497c55c0f551775b2635;
 0x7902bec23d9f91a003a928eaaff9647ac030289dd5eacd8cafdd31b93264d10;
 0x2c706f059d6a86ea496c2e4693d1717e4098ff87d05a82d738fd8883a82b9d5e;
 0x5ae261694bee2446a1813608edec696f252922d33e94280aa805bfd843786f5;
 0x186ee2ca779c5c26a193adf0ff47d9f333b750f99b77655011c64b3e8ccdf93d;
 0x1c2ab6e96f68e3b2cce6da3465b19e3e4a437b1f209c55e6ef99a1ac0736bd11;
 0x2fd17db7e1827169c32ccfc0ad14d9f97c7507f8ef88dc5d6f04b02203c37e55;
 0x241fad7570628418ab9748ced53646c2e100aeebd62a6c73804f080de66d9720;
 0x16b5b53403ee6f47e6100c2778ca970b40af6be277e98b71032f894e6f6a2f;
 0xa095842f718e71645b2e81c90b3f0857c8c935b135b0cb25df1541d38c7ff;
 0x303f2ba04eedf1425b5d7cc4be2c5088b9d2ef2bf478b9e9b8ce6ff1668909bd;
 0x1494435142c96fc94e8d66d9b643e019163c6ac2e4e162056fa8feee51956667;
 0x31cdbb9ad28ec57c4e1ac8ff66c791d04b25a28abcadae83a5573e3f3d4bfea;
 0xc787dff012f136b89ce3516c1cf867928d7107d218d62d51b0b2d8cc9850498;
 0xb20b314907f522e17a9d5da8c10fcf88cb956556cf077457c1e4a9ad5dc0b0d;
 0x11d5cadfd04189c6c14a49e8ba6783540adc7ed70bf25afe25df9e2ffd9bc35f;
 0x852309d50f14538c8b7d35658d89ba30e29aab6626531aaa1185ff0cab8a1ff;
 0x257395e7c190b3cdce5f934dbea907705008a30593c69293fd7105622602604a;
 0xaae37af5c3a542202935f590b667f979fb414273cc87931610a4b3144aebfb7;
 0x1c1654a77feafcd7feeba94c32605f95ded03e13c08a6274c47edb41134e2444;
 0x1480cc4cb3b9d9fc97b99e340fec19823dcd2edf198f7095ee5c70a9200995e0;
 0x18711057869189126f88536accea4882a34797a9dd96a94cc87b8ea462417655;
 0xe9c4735ee797b9c70833a7a6be7c2cfcb962f070caaa649466fdf9bbe5828cd;
 0x2e2e38ccea7ef6c29a922b027d31d9870ac0f9d27de19d70039bbd1f90ff74fc;
 0x1d66369e95c2e76030e380d6538a93278f91ea5dd60e5a316b3dced27fc137a3;
 0x29ef9102b5e671edc05f87bcceb6d900484e7ee7402a32ccc77fde2e7866a083;
 0x2103b04c1735f7511eb775c7334a0bb6d626fb60937ba3761dad73a84478e3dd;
 0xdd1b6ba84a3c29b62923765068cf63c711bc1d6bb28eefe38a0e4861ad13963;
 0x1eab4c7faabec58ab9b73b2baaf21e42880b77b0f0dfd30d38e1c955e9dd721b;
 0x2e1a3f669dfc929b9cc84d96d489ece114d5be5db8571469f774cf6f6c8022;
 0x1214ca424ea151785150d7db57b93cc6bbc8d75d1929938460a7c67f0c791f11;
 0x2e174dd4aafff6103164d9165ff8319d9260c86218510a4d910341f0b4e01d38;
 0x20b32f4a423617fef146da5f1a2695fcff6497ffaba30decf6ffe62ae952c435;
 0x29f4dd468db0873491468b7009dbafc79951f3b83ab64efb8dd2e56cc9b31a8e;
 0x2519801de4e58e4164f7f0d86994311c87f279a38afc4cb3c4d26cf41c642af0;
 0x2ca123faf875de4eaad80eba73cb2a00f22eaf5b6109ef41a65d2d286f602cc1;
 0xefed651a61fa30b70937bde9d02b9b6a302a1aab706687b2233ae9b20331267;
 0x13e21dbbfd7e5526bdc5075e73dee0aef45a0ed2c880b29b7dbd5c9e6439ee3f;
 0x2c2486d85aadbc358b1065dd7b14957e8cf5bf7451afcb394659741cf6be5821;
 0x2c97a5d5b9751943bc11e04c2d60a56c43d945b96b0982c8a3f5e63b73550d6b;
 0xd3876b0553694380adc086cc9272e1770e2f86b336ff78040419e5edccd8cf5;
 0x12365c7cdd616d258f9ae3504b37d44e958c816a0bba374278e8b7ad79ab9679;
 0x1b60354d16b01843540b8fc6961ff84a58ebe5e42b46d22aeb618e2db4ade65f;
 0x3778fc723ccd03ad8c90c311c141963dea639d2524ad972d8496d129e1c2434;
 0x2ee721dde852879e1238cb7a79207147b3d864e6c8a14a327e2e558b9df57662;
 0x11020d0581ff8e79c8f5aa4d50be2dc792a038bcb61aec4ccea2ec4df2d0af4c;
 0x1e0e921193e35b3c42ded003dcbbed8eae46712e15e63aec715f3f7031cf4f8f;
 0x2a6c13d7afd6636c2d4d5d36f42c09ac3286b67703ac4d2c24dcf5a3add9020d;
 0x27bddedea7d8d398b4b6e9152e17c2d092217609b109c14574f932bb02c88440;
 0x2e13f9cbc356728e6d2b7a5c593aa9ecc9b900bb98901593d021d61eba6555a3;
 0x109af33773e416156885bab0513dc199a0045d405d81bd2a151690bdafba3b66;
 0xbf7a121a985d20eebebf624f3837307415ae480954bf49552dd8c5f3e50301a;
 0xf78ba7c3e6d15d11292dd121aad459483271b5fe2ee56a63814d5db19290567;
 0x1625df035eaa992f424ddc6dc88c1b700ac5e6d5981e2ad0df9b290a56bd5001;
 0x1ac7d1f33bb598fe9581ac73b0aad4e9ace99ead01981fcf2c502a71afd56762;
 0x2d37296ef0cd5676d0809608ba340cd7b202e2e1c2546d989417d303ec319337;
 0x19caa62c5238e03ecdf75bb2c276be1805be3fe44a957d8aa3bf07cacf1c114;
 0xf32dea104320ce0f00919d90f9c6c76d496882791146c522a8acaceae3e4a48;
 0x2ce5d2452c0a5a9fb65a4a6482f34998865be9a29f266f88a8affa850f5ec6e5;
 0x135d590de80a0e717da7325c781aa167a25e5c310d92df83120e891cced24a8b;
 0x1d3ce96a7cd79e94492e32b8983d62fac736499850722f7fe7dd1589706ab693;
 0xea3a1e1f5dca3ff7d8671f2fecfb467f6a4e6516c8038a9306b36dc818321b2;
 0x1ed08c4f0e16d144059100f05fb463098e3d869f342e0ef8b4a47afe74a83a25;
 0xadf612bc0c24e826135c7de0dba90fbe1bd249f7424f1970b52e8bb24d986ed;
 0x240c424a024e59bea3a14fca73d7b63869eb9b68746ad9c356b93fb6eaa3e22b;
 0x24dfab7238b05bf08f66fbe599763f63d5c70a181a7e9fe35daf0479e2b1cbd4;
 0x160d79a03959c968dafb76ea3e08ffd2ce117d094e820d5e9f7ce1debd3bb08c;
 0x1b65216187a1ca1679642d4c40aa05bff725bfa50248aa89d57f570c2fe9345a;
 0x243503bad8adaf14a8e565013863c13a77f6f7a0fff571c1275b18f54bd77351;
 0x6c2ad47bf4de574cacfba515d18ddaf782a8addfad1c18ee4391163c541a62c;
 0x214366673d387148578fef89434bcfc7e0ce4eb08661904026b30ba10f3a1341;
 0x1db81d98b4d4d83226ae4131301c8e3622a32e2b7884860e85257f5f7b7e6de4;
 0x29d2bdbc19896e8faf0ce15d7c883bcbfaa38861d7c92299a6bef42f7c443f0f;
 0x19295f72c5907e8d9f8d8cdecf7d193fa86404cbb7a85522f7fc33857b7a9c88;
 0xbf015760770cbe8e6f69080f3aca18258f2cd092e33d3ed62d8d19d144baca8;
 0x6cb21aac0be8dc2528c3974724b38d73a918530976ff118d08764cd42e0b240;
 0x1276fe2c751ba49fd5b75cab5b71f64aa0588ede807db1bd583c3d6ae6941356;
 0x2a17fd8041ecd762f528d12067a09204f9296ea57374806c39896fe9499b98cf;
 0x1904e2bf9c0512c72559e71e3f132f65259058f7d68b9d7d6da1a8f9f5caf674;
 0x115b5eb99233a8a2200170733c4743b804c601b5d8d4656a138212d66eb89d38;
 0x6b58885f0e09be6ba91176fc8a6172bc16d680f888a3d92f31a3bf213e7ef8;
 0x13c6704e90535352934dcdc0483b4bb974d50beb7a5b6be30af0e46fbd7325ce;
 0xfbbcb96ccaf43c773ba1ce70613892543732feccc872975b8eb73e3fb4d54a5;
 0x59b4df63dbd2bb66e0b2a826c5cbda96c338fcc38dbf9e9c46041918bdd8bfc;
 0x27d859e7868c99d80f99d181e6ef7ea93a694623a89bbe57a6c8e7ee54be21fe;
 0x21eaced08f9d0b42c6fa51f59d65f96598e9ca50d6cd1dd49b84fdc0646ed68f;
 0x6815b7a3b80971d05fde6d7dc5cd2823363f38d0af5c0ff8abeaa71a323a2a7;
 0x6a778d29aabebb5a3cd940b1c33f05551217b6005248e0e716bd5a10d558c6f;
 0x14fe9fb1f167c6257ea010088115769e62b60ef3add0f3a22c9fe7a4918e94c7;
 0x90305dff314174e27edebe574bd8f0c8fd85843e7d2627db607b2816e357dc1;
 0x2ce23dfbeb8e1874b9ba894cb85f068bfb0497555cfd3dfaf3888aa492d20445;
 0x1b0fd94dd9cfe774d9146be584ed0b25cb2c7495a708247f5763c2380e5c1cd5;
 0x60bb716ba723a4e5f5faa179363a36774619d1e0cd91bf4789a1aadb3e612aa;
 0x43b10c508e8681843eddc05e73b95b7f54da5a93b701cba4d6822f9c9dcf436;
 0x126734e9502ba9fae4a314b67ade6ce8890e304a430e6c9f4fd60cb8ad69950d;
 0x26edd35db97c2ab2ce27b503592859b4317a25a688f9743ef0dd9cc2619db7e7;
 0x27b225e4a981af36cea863f591c8bc5aa95a4beb6d5c9abc5e03ba906ed72062;
 0x1102728832f751c313ac6610fae58b9cbd511b51d6121b3bfa60f47db12518da;
 0x18276cb011bdc6d75eb1c7d5d06cce10c7c9079c8c9920fa389b116620ee4141;
 0x2502d7dece8cd7d7a04a1730bfd2868fc64f835dfe143cee18480c7c3fcada76;
 0x6b20beaa575dd846254695068484611bbee1ae48285ba2c3d99c14e62581a2c;
 0x63ab4a078fcb212275ff5fd06042bdbd17aceae994e2c27a1ba876139f8ec1a;
 0x6372d5952bb69a460bf1333ef4ac6b20b07ad4ab4124dd4066a6cf66f406993;
 0xf41d4e3ef55da71cf4037c49d44c0a641f52a5a174f7abec522476e3c623ce0;
 0xf0ee9841b21b9b223c1d1a906993bd66b0ebcb7dafbe2b802bb8165c6011773;
 0x1df2eb2fa423f01396e073390104cad8004a6a5f140a2b18ed658068167521a;
 0x1ce05bc55407c883a5a41792ef3486ff22e403d38474cfa90f5ed30c8d30198c;
 0x37f1fc7934bbd5fdc34388bfbd0f95467254e5df2b5b62caed0500a2594ddad;
 0x1bd6a614004398f329b7080ffe69d3dff6de06c819fedea24aed16e4c47164e7;
 0xfc2e5cff7e9efd46fee62aa3b3f22bcc9f1a3bd8917e2e1cf5aa334d29d2a06;
 0x274fa4e3d86e7ef8b0fdf1a81acce8f9ed2f2eb4627de75781a813f106a377e7;
 0x193af1c5fa057ce682ec728cea90735935a22b5aff46ea2f803a29421aa950d6;
 0xe72c33ed6055471adad61d027c5ac1bf75444fc4e14988b42268f0787e29875;
 0x1c75804a4ef1c81c83684d688c4429ab1a7e517dfc602c9a2443c59f32ee9614;
 0x8803f69d83e0c3397e09dd47a80cf9f4e423437008cabad2e50110456c8c60d;
 0x2d1214ed17bf81162a5dd43a3fdcf195fbf47426044cb22db538478e942b07e6;
 0xc85b24b79ab57504422135fb1cb0c5e1e3a5f0a06103c2486ee6a3eefac7288;
 0x2e29f517dd1b30b791bfab03ce747f950202f0eb8267ef3f71ccec40e91d95e6;
 0x13281c94a670fe5ab09773af42606740503509efd74c1ed993bc6afaf3d64174;
 0x21a211407cef7b0442160acc9dbfce1a1e1d58c9e98f381a7eb48f7bda0f1e05;
 0x85ef1e77f929bcffad1a93f920c1d8c8b3632e1e1a1ccd4ecb01602759e087e;
 0x2b6f796de3509ea703c8da6276e3ea154b504170c59a8ec4581e9757d74ba759;
 0x1fda5074fa5bae5e16fb4f2d18d589a7230b9a1c1e4d08a8069fc8d45b1de3cd;
 0x2d22a3c0d324750d3be31219af32a8282c372dfde4861ef86ef15c3155dcf14;
 0xc21f4f4bdae07a79bb3a98cfb351aa629f3239c4d24aef92ea79bfac9c2fa25;
 0x1b721ec1c1df81c83acd7a95ace16b3e2ff4297aabb6f58100b5dab06d3dc404;
 0x27ec9e9e923edee58189d6c7f303ee3e5249c5aef78758c7f511cf87b953561f;
 0x1ecf1060366dea9506fda0d01cba016db9620090a160d5a760a75d12d5d72e78;
 0x25d432df312e005c69a06a1f004ec899575034da26392760d17acc80c39506cd;
 0x17a0ea51f9a201ba2a0f857c9969a7f6bc6f5d5bc0e4957e1c0dfe4b202e4a24;
 0x2d34c47b847d67c9b4dc313bc714ff223ab01127806ff6c922d8763f142024b;
 0x20e59e5e5bb0951a660122fc1aefea294e7ccd5f9c79839282ebd9e119f96ca;
 0x249c9c850173dba0ffea3568c28416020121c3d9990dfe2e917377467759267b;
 0x1e8ec57b7681d631a02d530c9aeef93775869ef093de92014cdf85ee2d459da;
 0xf739dcb9f3ee6e7b5519774b540b2898bb6cba3629bb6c60e423b7eb6b5ffc;
 0xe016f0724fff85d781aeb1548d76c566e5c26aa7996edf504e4167285fda66e;
 0x275270828b9ddc964bb8d68a6258543568c844947ed5ed94b3180cb874c68325;
 0xf1ca3fc28aacb8ac21a5b44bbeb0ae64cc339de13e04c74fce820f4f93e48d;
 0x216b2f89c90105f570e0911bd1ce20e0664ffe01811cb777f90376719c0e20f3;
 0x1a91edf90950cb2689d2c29cb22f8dea61ec41fb061f1b6002f72265694c784e;
 0x2da3342eaf39a2b242713484462971afe53df55bed5f5d50d67d9138cd78fe84;
 0x29f79c86f5a9c96fcaf2296be36425b72afaad4865cb9090848249158e2ea4b1;
 0x519426a15a599f20d2979302067dbd1454b46539c9499c65f6195b55c760337;
 0xf9c475cd72b7e2e3865e96baef89a149eacd3ab340210a9c5e0de6fc082e89d;
 0x15f1d711979dfe13e45eeb9759a89f51db3d27594985890b88c9bf276922173a;
 0x1f083ac0549a1ab00d4bc9066f05494148f60c9569e7989941c3f50fd6acf760;
 0x1505ee4f79bc8187856d5f3f5a24de97aa082b8d452c63b17ac3a591451b747e;
 0xf20876d712f147e2fb9f7be6a51f346ea28447df529eb41342948fc2d8f096b;
 0x1696d12d9ae779c92120ee715f6b8da11ea93af2673715a2df7731db91e360dc;
 0x28485f438eec133b0be36b32fae82da57fb4006bd7f5bb15a267e7746b37bad1;
 0x2780436f9da12461fbe31d979656e6d1a13386e0e6a5309b050ca819e10ad945;
 0x271ea863673332df2bf2471e6c8935b037ea8318ea5b32379583f611e06b3da6;
 0x29f1ba4b29c1daecb9839bdc08431bcabe68391ca540f68b484a4f8e96a9dc61;
 0x294f4cc728dd423fdaf37377e069aba66f4d3000f1a559bf4c449103306031e3;
 0x146b521b1c08c9181213ebdbc2a34fc3efd87ddeb1bfc5e5d17ca951f55abd17;
 0xdae0af973ea0b0fcdd8158ea51b9efdeed5eb664b84ef67eaa255fe4e55f3e2;
 0x2604cccc370f0a50f3f726edf1242bcc131dddf2697853276c079ebfb883d8c2;
 0x2873b19db1d03896d3d52d6f9361e3fdade5e7b2e6833e4d5ce4661186bbbb9f;
 0xb04d090bcc4cfabfa47f60043859aeb5f33a6de205dfdf0e3d099d4a8394e08;
 0x508a195c0ca583ec10156f205ca1bb6f6917318b8ed6ebb7347b77d72dcf748;
 0x9262dfa80aaa0bc61c5891c237a519d3808c53fc05dce3d71f17c0e3f2a5eeb;
 0xce6d25b1c6c1b89fa005c23619d877f2ab2fde708d30923669a49fe25b3c7dc;
 0x2e69685b46c8050268dbc1040e23c739d7216b2c5e76108136d6895ded3ddc44;
 0x278fb3df3fe913657bccceb553138fa7b8ab6e062a5ddeadfdddd5b305ff822;
 0x16da892ade35754e57d8f03f3e6f4110a9dc1639d9b6de65e479165ca49f7a4e;
 0x159754924e7334854ff803a1782ffc059927a3c26dc43e661e09a1261bd7c94a;
 0x2212ca6487b845ba4d16c09e224297d4b1a16e341e6c593d7fabadada3929d7a;
 0x2dd088de831852d169aee1d6be69b52c5dee0b73e18fca91cdcef9b90396a047;
 0x24ab42ad6749a14fe2f707ec53ac3b0315deecf421b9753032533e28491db30f;
 0x2f6466e50ef3c61a0e6493b18d34911406e2e97d3551887af808d67e1ce9ae27;
 0x1f5886fb8618c8711ec08de9477571f0eb6e462b8f5e5349f85631f059594480;
 0x5ba34953959784a57c0019e916e2ade5d6a523110437cea9c2b94453dcdf2a0;
 0x27aee67a3c6ef783cb55915165a5bbfdd86bc06c776f145048bb2401dcf17341;
 0xf57efc05e9f97e7f68c694ba2b3bf216eefbd5c71710a56f460682a6ba5d5ef;
 0x1d35eb4a40a41dd77506d872a458ac93d7336dcb72f15b182a6702ca53b94eef;
 0x18a33064586d5a702bc4bf64f70b44b5a77918255c2dffbefc537e40bd5951ff;
 0xb0ae5716e42b440b7423bd899319c880a4a674550b7bd036207e006ac7a2d21;
 0x1136a0f6c004a2c57d21a00c40dec6f027b140b36d3594c1cdc1b0e8707b62f1;
 0x21cec52ac4b2aa7f80f98eb75b4e0280591977d50b677b8ff10b0a3d028532ac;
 0x284a636786fa63579b1541746901d48e440cf0c586f1b089cc45e8b830fad22e;
 0x1d4a0aba0cac51c3261f7c483d89628d76748b0833cba6bbfcac5243e4bcb4da;
 0x410a065925e90fc70ed1aaa46477a8ac8193a10c48b5d84fb5e9cf2123ae24f;
 0x301453b23d055c184a65ad6a6acffd9f520637fe751ff7b769409d512fc92f0f;
 0x37827104287d94bbdc06584d36d4d5e2c46c4ea224f4e0dc0c3bb541f053b79;
 0x294641ba8a02768c5e3b7f542d281c69dc2c3f2e8032f864295a64b08a93d993;
 0x1c12f993f0f1edd809eeefae6932e5b88738b336bbe6f976f5f7a0a178ffeab0;
 0xcb2d948d38fb8e17c60ba6c67608c9ffd912e0a627eee756b8d22af8b9e5e43;
 0x26f1ff731268d9bbd26ab33e588acec09fd5a4b70d60b553904f5e2d05e894c5;
 0x9aef8a2029f82b76d80ad8a3926cb6e1174d8b8b89c59707c123473120b4c7d;
 0x1be80cab12f4bd1737796bc770f17073c6b0046c327bcbf3a36e26406c775c74;
 0x2476e7bc637f243d23d762cb3e2cd8430dad89762576cbdd918428a75828836a;
 0x196d707ca5a9edcc0e3103aedfc60abdd1c9e577354d930be0d5b6d03617c209;
 0x1d262487237e8503908d5375a1a798a9b8c0faccc056eddd8aa87d0a66b07d24;
 0x2a21e03d41154bf3191f1a834b9af6b23d40bc01d027c2b4841fb23dc9ff715b;
 0x29c647822a1ae565b2bf1249edaeba0cbb3ad730deb6d2e6618fbf9e74daad9;
 0x23e1971175b8fbb26c0989dea82d8f4a3f708774c286e4ed2f8dfaedaf3db5e3;
 0x1306188b792368ebda1f2e31e846854cbb34f175e01c92457959ee1c6da0ff3d;
 0x127d0f7eb9804fc20ab4f8b9409834ae521645fffa86b0c221d9223fa0e9d2b2;
 0x2441985bcace35a81b1f81fc6621215df0ba42441e450fc65e3519a0393b1196;
 0x2df7d4eb115114544ac4f52fca36d6b33f09f639253e9e3549d5987b0e097136;
 0xf6c5518f92ee2e549d31adbb4e78036ef9aa3c2164c317aca92203e3b99f940;
 0x26e2cc9dea47dc6807f87cd87c531b17a7f2f5ea86ac094e5d5a22fc3433dcdc;
 0x1c71e33c864b0a8de4d10dc26f76bed55771d1601a0e04d399cb2397064c5cf8;
 0x2a2f0b563b4083766c8b6c60872c32eeff2b207a1981c05b1f396178f01207af;
 0xc1af0bc5546250a7fddf1cbd3e7bcdbaf74ebb979535e0b343676dc9f9433ca;
 0x18bdf2e7078dc40af1cbe488cb562fd32120499c4c972a6d43b92ce167ddfe5;
 0x22b36859a16a8cdc3df10af2820715891f779660a1f9a25ef652019f640bef06;
 0x10e697dbbc43c7ae2030f5d49974f8344d5e48ab66d635b41e7b96fbc7c6289e;
 0x57deb4fe56390abbbdcd8822cab5da1207a0ad79423920622b0c4a12fef3552;
 0x12b27c1639f162f846fb37ae7144f29137682ee7eb1632e791b4628aff4aac23;
 0xb2c7c76d01843a2d14655c23e8091afb6f3559d66c3bbf3d115dc9d70db5af2;
 0xb7d9684c0c8eca0e8c31634c9fb68b2e83abe72a3679b3678a8c9b1a13a4895;
 0x13ab0a7fea9b2c828766d2fabf574248d2d7f7b2f8e60e261cef29cd916e9a2b;
 0x2de3579d790ac367f66d90557b54668153a5c37d5391e92a6a5615c9d60be979;
 0x1ba010b6d63b9538b281be3764e8e6231642c6a6735d89c9808fab7bada21f6e;
 0x26ffdea8a8d9894ebbe02a705fb7506e12b1a7f100c5902584e4dcbe1f2119ac;
 0x11ff1619a49d6abbb56390e3dbaaf0c1cb01b951a734218b3cbda4e8052ccba2;
 0x260c36b80890befae89cbb3478b9f7b5b3f6b11ded47aae2c0d5e0c48d8e5174;
 0x5ca88857cb0dd5f380e592aa37f6f94f7f0c3262131cef29948a1a49fd184fb;
 0x18b3832a19eb7ee1a9dcf574302ee063ec19046b3b9eb7fb277a48ee8390e485;
 0x2535291f03dad1e3c540e7f26201c2e330188fda58be783067698a1739f79369;
 0x14f832b38a9f43af26e5ec2fabf6c4250083cf87f0ba86b95053e9182d1373e;
 0x2548e6c4767c67691af55162d9ce0e45e89ea08a4232fa0a223fde869bfd3ea4;
 0x23ecdaa3f942bd45ba46f528cbc81a51ce1425039f44781a7696f48d29dfbd1;
 0x1611bb59a3b28756b840db3189a3a5ea22ec16845472abd68570ac771c8f15ee;
 0xbf7618845013330ff465f12ca95079ab72d0ca9d8a7e633048c11bf2c46c7ad;
 0x15c88fa2eba3d087fd29f6de6fd864b875662ffa438144352d684717cdcd3ccd;
 0xd58d12798ab552f96f0d951e97cbeef887d858656b1f6af4010c80091b0c662;
 0x406eecd7bbc21eb04fa1e565745cc65445e4f82f4a241efb8bab06eaf9c7cbc;
 0x2fa88eda065714b9ae5e18456130e31bd6f48d02b2415ec61ed209ad8ddc3164;
 0x1749863aeab13ca512261103eab93b43fac53df6b04022c7cb7f17638f51c29;
 0x1553263a318edf34429d901f3879932b72f5c32ad56e900abf47672f86f9a62;
 0x28b7a8be47c2239079a01dd6d0e57ddc03fca9c6a58d3df6f234dfe82f96aca;
 0x2c489bef0fac19bb187e5f8a064e67636f34b289c2e8adc76ecbdbb5105fc1c9;
 0x1ff548c6690f5227d576668fef6741f999c9914cf4842e793fd5b5194bd0c3dd;
 0x3c1b551c84903040faf3d6db934e83dafc5f0efdeb7a8feb27547724727a344;
 0x1ee3620e8f0dda8c6f155ce81a9376009bcef2c8d8f6f266e04b7b80ac8cf867;
 0x18e45fe7ea171fb11d0c4af5338568990f22147e14421f336fe6e0bcbb8a0014;
 0x27393404521a55e0e1a4e58c561180040c18682814882f45aadd131b9f08753d;
 0x7ff6857011a24b20d698ad43a5f959acefff729940e346ab18f9d2600f83d05;
 0x2981b3a288b4327839542c5796ce2f09af9d022a604ffad61fe0077d76748bfe;
 0xdd5b0b8158e8a73995efd0b9d898d4fd3587011fa586cfe02ce800f3064033;
 0x84c05fae73cbd6432e622cf9880f0d28337c6874b87b88ec0b45a55d393623d;
 0x1e2ee2fee9b9bf8d3f3722e7028ff3af8e5ec6319fa6d8997dc115e5de2ea8b1;
 0x3418fc5909b62b0296e6eb42aa07a971050939e99ee371f6412e44e0ef577;
 0x1c4994a2d41258064376be5cf3c99887aab74803f67c12c64e65aaf7f1ef56b2;
 0x413c2b38733961feda0a68493d3cf44febcd77952b8806ff583e8c40b31032e;
 0x1c46ad39455255525b267b8a0533c5c66504f81ae9534bdd091ea98994997f1;
 0x232fa2c090ff3ddea83adca0b9cd0e0918c9458b75b0ba3b7d677add820be289;
 0x1cd5701c80a10f420eb34f534738c0dccfccb6c87ccf9aece35abab37cf05fba;
 0x3b981fe0c71882c6194465537d5e402b816118aae94bf8518eb07a529e4ea54;
 0x168a588900100006443658a61ca9d659f0ac451d1e0bfd5a6c6a3aee85723bea;
 0x1e51f558bced240c65b7cebcdcbbdb7a9ab06e3580d46f318de84edc795e6f88;
 0x1afa5a8c5fce396de56ec97dcf0317a6b7cbc3ee1f8e9a3bccd6d870022b750c;
 0x1135efd63e8f8cc9cc0661dd49d36ac8ebf7900d90d66dd5fa816054d4017dca;
 0x2914d21c2d2845ce2b14e951f42103599c8755015641db03c54df337103440ad;
 0x20c87a2d759749aea9b2f0f8cc01452452e711e39eaf5a8b07100a197127eff6;
 0xdb07920dd779c19fc1ea8ec5323d5af0d511b869db67dee0408785ed922905d;
 0xd631f18fadaccbfdd3b3be46772a3bcee276378cd2e46baba90d56468cc50b6;
 0x2c500f790d463fb136f2d8d4cade62296e7d7c49bce18395b3014c9fc72d005a;
 0x176a9eba97635d1e59b19faa2b3325a5b1a27376a16dec7317aae4afee02bfb4;
 0x1202fce1a501b88b455ca44788d55214baeb3b54e37d1cc80f3d6ec0e09d4747;
 0x222948377ee9d27fc6406007e1727b566b825decb95096c9aedfa8e6453a5cbc;
 0x2ec66fc27d82aab2c98eb50e67a0932210f3c6e12456269d57ea9095f41166eb;
 0x2f5c233dbe3571836fdac0915ce6596fc0844fec3d0bf5a9b968ca58c45846a3;
 0x13889bb59b9c07953b52f66123c8c1380e6f272426103adcefdef4dbd2865da2;
 0x1cf78f25faa52c747312d09fb4e9abb4f1e55a3da349cc8dcc6dca81cf99ac3a;
 0x2c0eae2866d65c97077047d0f4c43c28c8d7f36af6a9c6fe07ec89219f1cc735;
 0x28b816cd8b8c98163380066d0a50d8b0e06ff1c690b81b918c7ddd08a6b7066a;
 0x1d46d91669ce5be6554fc3ecee895d41fdaeee189adee381abfb75ede1488cfa;
 0x1841e03b9fc527450e4470aa8f0888d9ec8599db6b0f7222dca26cd43d22bb05;
 0x2d2ead7b2078b09085805c2777c90f6c55744b49a73bbef04c899313bafa0f57;
 0x1830a8db342676cf7492281b4cfc7b138c55d44daae47b14fc888e5bf745095;
 0x74e4ce32bd14b01fe9f6729de2a12f218fe443fb708738a860f1910bdfa4678;
 0x1fad4cb140fa4d559cf9525fb24e7f17494d239af679a030e7d1b7c9cffa949d;
 0x1e50c6526c7324b97b7f338752bd700ca5bd6c0efcb225260224556d76a28331;
 0x2cf0359b8da1abffffd73f90758645793f5d1112fe898e8af0c61e79e673e5b;
 0xa14ae497b49785ae7771f0dfef4bf41857bb2fd1f27d15c3cbc8ce3df9895cd;
 0x16bfa02f57735662eac1c1f520b4b3f9c4bd26cd2792177b276068916954cd41;
 0xf6fa95e0117b734579f68dc59736c7f9afd9cdd4a90e13629eeabfd84525e9b;
 0x1d59cafe27bdfd78f564894300763436daf93f863c3213c1a849d1c3169ba771;
 0x289e39d6a2d4bc817ab104443b89b8a608b13bbb93b3ade772a63bee300bbc3a;
 0xd47edafd6a8d4651c27f6bee48e9756f5d6515af1a3a3512f59e9e3ebdcc331;
 0x198d6aa9072a06de13128d7b17157f85994a10c4957262770cc4f59e6c6d332f;
 0x174b80e4210f9d81be7bf70e3ab0b21de8065f7222e80cbbd3cf985d6aab0f05;
 0x2d78036ba0948752ae78b1138b4b9c4b67f0d78a9c8965e1bbbfa356158532bf;
 0xc1ff404599af823908f32e607564f521b75812c670543e390cb02e3087ce924;
 0xa561b578f4be4c533151da1a529bc98f4940aa5b48f8c012a9c181d811b8f34;
 0x2012a6ed245e48cf65030289a1cd01d26d3eb2e439bbc4f16f256adceb40bdec;
 0x824422abb64b758f600c18e6b998c19d82a9ffacb95f9eff9e018d5afb30baf;
 0x250a091bc91301bb1393782a7e21eea81c0bc8e68161a3a4e5e4a8a7e30964ad;
 0x1a4adbc8530eace4e19696d77a06e1eedeba3dec2e44accd3acfd7fae6d076b3;
 0x25a511f7b8595b12278f2b05b4ed6684ee12b1d298fce27ccd6787b5a86e26bb;
 0x7df25e8f76f32d99b99dd04d927c1b2fa1903776636e38f7188d8c2b73c3a54;
 0x59421ced9bb92262f97e7c7beb8135539dd66bcd6f0bd41bd124a929823f75c;
 0x26e1cdacde91e112796df70dd3a479b595b8cfe7c4c95b5956ed477a07813842;
 0x298083deae9e0cc40a9b60e494e44e6efe93a8e0fe21181cb1351d97fc0d954b;
 0xf01fc7bf4d2f1ec8cb1af8ff17715316fc44387d515185f49a2443ad2a14ede;
 0x186049573b3286b17003f9e5b27b8a36a78b8f32efbf0510d9fcc8fa7e73c5f0;
 0x7335829d8e3758cbbfc4cc49b655ec758086676b4d3912da39f2ccdc4a28d14;
 0x19d072d6e66aa6e034843cc3d7ca51c47df51f35dbbf4a99d34293fc3d59624;
 0x2bea340a223b6665f5be6dde2eb55b40a05aae26d349a6c4af07e3458ab9be5d;
 0x1b90f5c0e53409f8b573056438bd9e6395f5256fabb16006c009bcade1eecda7;
 0x1932c3f3e1c4481420c603e23f16029d8b97603565f6314184776d865ba2e7e;
 0x12e4e9f31be336777527af3ad443884e353552da362921074e023f14580b5e73;
 0x25e7a09a55698b0c7323472b2409654ef12f2959a7656c0dcf35ad9a7926f3f1;
 0x178c9238fb91fe512f6885e512e2a59b7686a34aed0fde1ddece6b1d08d422d4;
 0x2b568832e6262628c31e405305f88402948b515d28861f0dfaef24921e7e352c;
 0x146ca0dbfb0fbb98c162eb84b37228cfd7311e0d15d2e48def85f9d207bd175b;
 0x95371673ed3ee55892e373d5ad5c760268c83df7f50d44d29d366e1d7a9373;
 0x51c57cc37343989744272869cdc94c0660bfcf6ea1c1c7ae51427fb298c9db4;
 0x1c8bd96ca390714a2b0079ec38e25af0fe7a69fce1620f376f770e1325aa65df;
 0x1712f67e82f90446550d51c1d2e4ebb1475d6e6043a5c46eda3170839785072a;
 0x1c3363715dfea957de9614b6cdea17066c385a8864dad5b43aff09c963573925;
 0x2672b8adef74adb0b71c0166de766a39e5e1cae03719aed0fccfb7ff432fe916;
 0x10635771a37850c2417c96b7f5fa48a98734ffa59038d8b7136cb5d0c646e1aa;
 0xb16fd5ba97f28f5619f6989cf0d665e908cfe8a1fc24e5326461973d09bf0e7;
 0x27df27e1618278ed22497590175692d262d4aafddfe34bf8db619c37a66068;
 0x36ab8de1d7df77301d16cb576a1346fd196d25534b22667f50628769ae136ec;
 0x49ab0f37ec5bcc724a3ea321a91951f90cc00afdad5ba3d5081706df5e75e6c;
 0x112fe3f664849af9f494ccf3ccf0d4b8f1e4a600c29631d059bc6ec343450c49;
 0x232b3e1d4715272d5f18a036c137f0c6fa56878c9aa054cc33064e2a5d30f567;
 0x56c91dceace41ab131a1c59ce4a320857224a09657ed82f7141e7619a5db545;
 0x144cd983cfa259516382148e290dab14ba9b5d8e6e76b84ddae2ab086e7a7952;
 0x1d21aad5c6b407e6eee7d0b55aa92ce0a32a39e918bb32bc8d45c28094a634af;
 0x176f60be5a21b98d3469e1339bd5c7a0a8ee84a0d34339bef675d064e6e0a466;
 0x329d048658d0eefed7f3aaa9bc143b0c26636f13262176d650a1a7a2044d34b;
 0xfef28f114d6420d1a288f960fd9dd40bd4a5a02d58081621711ddd2887c757b;
 0x8818813ba3e9a9329254e78e00a83b360c905c7202459cfad0ab47658276a81;
 0x20a128b7112994e52c4849bba8d1217f13a957bb4d0ba6a0d97cf1914b65b07;
 0x980db3c7d2c8866e9ca0902c3b8e0a078585951ea4acbac245b61cf55a703af;
 0x14f2bd6dc317fe19126b583da18e2d7175cfa704c5267b848a2ff9a12bb188c4;
 0x11226fe9d81faa6c6a35d3a12230d63245061f2045361e757aa0c5ba7c5b3152;
 0x1fc144aa275cad950ee4e3182bb87783dc45906b2e846e2703228e5d5328c1fb;
 0x7858a3e15adfc14141090d972cdda3461908dbfd1c91b7e9b991760c1d47749;
 0x19284489d7b53ed2549c5fc66331c71b9b31446eb3668c65d85ad094727d45e0;
 0x587702c19b9737857f99cfd021f8fc6af71b428e3ae90f9f5d2ec8e7140f5d8;
 0x30602b296ce2450d72b00ee8cece9f896842ff3470b98e1cba2a1b3ad87539eb;
 0x2776dbec079a5034700cd9c6e21404eabf7c13fa17d065a2d69d2987a718e78e;
 0x28bdd009549a97fd0c29e9c30f7af9555d864aee05ad1886fb918d371ad29e90;
 0x29791a2e17dc204afe645306f584ad767f2be949aa6d061f886f21d0401aad14;
 0x22a667b65908699a22edc1697324bd37ffb0f18f00c0ba7292ec8e05470fbd76;
 0x200d4863b2f35a853b7d5dcdc22bcffd8f45b60bd036c2f94907d873e5d95ca2;
 0x18bdccaca11c8a10a12be6f7cc96d4557dd9cdbecd5f841e87303e3a312e9e23;
 0x126ff502714b58c3a40ffa3d96df0de4e8aff3543975235bf3510c7ab22d897c;
 0x570fa4d1c92cf2917036fb2d477727e55b569b4a58891a07f96c500c28bbce2;
 0x8c84000db8f725655f47432db3a4dde514dcf49b40fc4d301a17ce5d7228feb;
 0x7212da8afb35376a4b9f93c20f7419ec704b22c898b20ebbf3ac9f1bf513038;
 0x28c6bd8667a7e5336ebb7e53c724990fc8af6a059390353bee16d8c8dba971e0;
 0x1790e7a8c59ebbdce18ea7b9be261b8848a8f5c69b3cd7a7b63a1b1e6d4c926;
 0x9ce10751c2b7b90bce0d62e8fcb29fd3c8a0d286e93411fc66588a70a14a4fe;
 0x203ec579417ebd5f056e1346a8c5be34cda66c9901fbb0bc27b8d773de7f665f;
 0x2297981100bfd0bdbc495572aae5ed5676ecf2b693e33913b8fcffe65f57f4cf;
 0xe3fff36bb554a017f94e88130957a975d343d15c0772a67ce88bb1736db3e5;
 0x22214f9dc31c1766784846260971d051aeee92226b6f13e2c4678689ee1304ba;
 0x1eeccaaca23a1446309ca4c3d9b7d07962dbf8bcd8b3b37218f4199281263327;
 0x1bd52cf0abbd32e888d402aac0a358309bc83eb74256efa17edc1abad196bf63;
 0x26cd8ce2ace79114e2ee96fc1ca3801d012345c68750009745735edfc4e29d71;
 0x1dd921013e6519e29b9aa0f52cc8c02fff3ad7af6a187ef0e90635008406dd02;
 0x10358e1cb8ac12e54988a64bee4f1e94921f030a6926a00d57236283ea0c0ac2;
 0x1ca1168b167aa5298bff96d82356b7387ebd1d70431c30b1c0c0df81fc0408c3;
 0x8d1ab2692d291aaef2e50985c869485061578a2dfc37997222c81ef301fa942;
 0x2d59780dd0a00a869516c6a0b300ed06f6fc39e0f9ead60507cb24c14444899c;
 0x19b30f06355690afa779693f7f99c4a470f8ab8abd6989993d489a9b17180cb2;
 0x1b93c9367d56b207bb1a2f171b56208c6aa1279be2572c1a59e65345d873768d;
 0x2f8b45e1e079448ade818bcb785b0c8bcaeef004d956142347a08467e1961809;
 0x239af691b7d6edf2761f88deeaec665169de99399cef819dcc37b4609b6cb4e0;
 0x1260bd299d9e99321561090559b3f90afed3a36f36c4d397072de293d34cf8b3].
(* poseidon_bn128_constants.rs:11099-11176 *)
Definition bn_m8 : list (list Z) := [[0x1aa4d470abeaa2357079129d114bab1170944f929fc178216ad847d4430f3f27;
 0xe1f4e4d26e9da5f8ee3deaf48b493610be61d7d3db1d9754feca30879adc644;
 0xc298c14356a5a7f226c5a549e59184900385aafd8ea41d9746729964ef75f34;
 0x19e070982d3ee675e1622ca20d13b2375e528b676706882eb8f1afe1c5045ea1;
 0x333e2923992e89dee570a650125eda75a20a72e69e10863a19d17b7beea9295;
 0x1944aac72bf6fbcdec04361238c3c4d9510d5f07439a1b6ff41f652990be0139;
 0x27d802ad019a42fd04892ad167d9e83596a730605890401319661675736359f3;
 0x2bd05a040a0987ac6bc01f67242d54b7a2c527a970ad2815b273471eb9623e73];
 [0x254b8126f45243f14dd8211df41fe5516b35952d56c62678c148e73cdbad3718;
 0x2089c597feaa4ca9a202edfbc823763100e294c9e33000e513b2a216491d474a;
 0xddeaa906cb65f3e9c9bea6344dda8db90c253c0f7f99ecef88786fefe0e5cc3;
 0x1114c9120442750493d999d4dd45dbd4f3b75ab183209235396ce83d8ee9916f;
 0x2e8b35a8c29e639dde8dfd49b4b347f00ee467863f6efcb355fa1534ef70783f;
 0x20e6cc613ae6cb0a518425f53db1298a7f8859ee20aad08320d0a4f9bbfe8512;
 0x2420dd1281fc0dfac176a752d15906b55f137b9cc320d5d5daa9df3f3d43d3e6;
 0x17bd4f2726748d99925af9a2f2929e231c1869428c13b1e397bb0099191723a3];
 [0x270712f18b1518fafe093660f492cdbc2fb70ffab31d8a4d8a1934be68792369;
 0x107cfefa1e864045a668396526ed9f675b2bbf272ca635d8d3e8801099bb97d0;
 0x4b96a296a35acf415929b8784b6bba64a630d29dff28b628fc98ef708230b57;
 0x1f0465a9c133a1c6805d705be6b3ea9912a2d062c34dbef92de46955b83e7bd9;
 0x27a2b7f5549e5eedb90105c0f8e20f0571ab7af0801f1bdd23eaad91f2229a13;
 0x31b0afb7ab2f1d241f882178f7dcdad48591cc67905d651dbcafce94b14d073;
 0x22e0323bbbdace5fbc74a0b3dedea6e1e3bf10e84dfc71fe395089ac197af744;
 0x1eef36d62f3f864eae67c63324e47a6344e33a2d5bfb82f05bef9900c54e745a];
 [0x2bfc3981a249aeaaec4ab9001727d32d4e6fe75598ee964fc85cf30d50df584b;
 0x21630ec3f236ed219f73cc617b9f8b267dbee99a63c528544ea31b27cde49fb;
 0x28890a03199b727fede5ed0090ed69494c053c97930fbb6c52358b0d7d104c16;
 0x1b80f3f439396c2f466b8e9b25765a014970455a1beaed7a6fa308dac75fb582;
 0x2a4bbad245a33e5d9701537f751410e4ff297b8f1d1d9098fe9c518c261a1b0a;
 0x1e431f2b1b7edae4f8cbb5d307bf5131c352c2a215a870d739617f4b017c6d16;
 0x255639889a259ebe59f74a8fdf2efce7fde1e3a666b35d8e6ec601d4d0b22689;
 0x2d0d8a814cfa16c2323f174be2dcbe0c295829fc59bf2a89f13b4ead0eb056a8];
 [0x16060a17e1b11f851ceab20464572b3d78d582ea050014843101485f65ab723d;
 0x2741203d66c523c7639ea713b20346119c961cc1e9659a458af74cbee16d71bf;
 0x2208c5004806c7aaf58314590bcbea16168fe62ec0497afc6bdd2938c12d9a23;
 0x1c01f6db435dc4885eef9cdfed193250b9d3eb4cee366674b07bdd194ff349fd;
 0x1f0e36c2cf9ac2c4388e74966d9ee7d1a0b3186916a08cfa306f6bb36d21e548;
 0x199fc2be60e49e679ec2ede6cf3345dcb3b918e5b3e07c2cd8141333934e178f;
 0xa38d163b8a2fa3092999c1797b1af909bd971a25a656baefbdbdfa3628e678f;
 0x198949eef2b27c2b9c3d699e3fe57da3d5b509c2b670afce400aba1aaa9ed51f];
 [0xe73217a106c402e4c6c166cd9ef1fd2a0b16ac1cb43646bc1c726f83177770;
 0x17b2092b0f634576b654c6de21a1a8d812bd4c01559fff83217129082e2b2b20;
 0x2f24d609cb23720eda55fae29ec6f19902c42d8bf904fb656202736d97b2eb69;
 0x2df183fe2bc9b8b75773fa961c8d4117e582a80b656af5c58763e7024ea4189c;
 0x15fe963f5bd0d92878c10a894e118018db82e63528afa4d4703e9881eda118d1;
 0xaf594dc4030e8509701fbd3d8995f73126ad72a7af0fff344eee82a31ce77ff;
 0xb8e857d9fb1d554f3a4ec307ad907de7a436438603af1b28d4e4ee379960ce7;
 0x7ebcd25a10e56693a28155fcdaf7b3519d9e0e08241e21789696cb76ee06297];
 [0x4b959ca07e7182ca08f2351a03545bd7ab676f740b02331637ea1434c8545ec;
 0x68e8e63411df2b3a9d7c567f66419a580d3ba15bbfdd1226effa3fd6bd47b3c;
 0x344d0c772c2f053664a7b9266b19d48ae5d2ab3d1c1a18150754ab4b836afd3;
 0x7e0cca1a35ed15fbdb619bfaecc7a9a8f4c51293927562acea8eab817c6b84b;
 0x222edf3e26bf74b2f503983189201d4ee8e6d6fad341d7ff50748dd739749df6;
 0x2d4308b4823b465db653d36818181209d23cd12f844f72f7548d49e55055a601;
 0x2e8e67fc85f9b4d00e9e1197b35bedf55afd7300a4c370987c83c15cf73cae3c;
 0x22f1bc4ec138b596128ce5ee5b8184964cc262318e17ad21d45c552477f53e61];
 [0xfc9cc95222f92715cf7476010225e14cc38f314071e50e0f3bc9ec674a8aacc;
 0x2f5a2a0cd0cb24896c94878a8106d57e82c68dcf1e209167a45ae9cf8570fed2;
 0x2cd19b5c55bab1809e52cc9fc1a038c08935da19cfc563e7048d6bd1970a0c8e;
 0x24ff2986781fe40ae61e8f5ca0ef17c5a5ea7bddbc127d431547c1f6a8f5cedd;
 0x12a87d0c5419f448419840e5e5a92d276ace00963d987f2a1008913d98a27114;
 0xaf3ceff2c865a901b9406d5d9b2fc58833d642f46c6493ca030ef595061ec6c;
 0x27f42d86842f4d8a8c3aff2f47ffc1e179f097aaecce55bba0b0fdfd5b190aa7;
 0x2b6b3bc340d4119e57831e4a2187013f1216ab3b639945dd92a984943241f1d0]].
(* poseidon_bn128_constants_opt.rs:590-717 *)
Definition bn_C8 : list Z := [0x123992df3b9daa65139ec13fbb52f7d348e134333684c1596feb0e8d8c3ad596;
 0x2fa46f5dba9909ce9984a01e2af30b550dfec978be92b49119a3959c7f623703;
 0x21d8f94d3bd98f0b63a7aacb175b2cca13b2dd8a8cf68fc36d94ae29401b2d2c;
 0x1a8c06c61046e0f8dc6a39bc57aea0d07fd7db34e68f73579da89e116af87eb8;
 0x298cd7046f58c0cab77523a58a6fdfd1401b89e7ae5eef4994442d167f7ad1d3;
 0xeac737966715df4a20b31ab693eda86a07f3e830fca475a6574d67fc5f19f63;
 0x6b9b718bb3b6d45e0cbe6d5d9a2f096a77beb056821750d072262af2a70a33e;
 0xbccdad6e8b1fdfba846a9553fc7905b3f96e435d653eec3972565e1fbbc302a;
 0x21c2dfe20dc5a72167bbabdd95a18c147f8483cb7c0e2e684a1ee4012f4bd92e;
 0x24ad6b2755a6a6ee51d92fa30df2489320e50a8ce7132504ceca30e9480079b0;
 0x67a46fc4c52c6ea102cd37b4478fdbdb5e749877ec437bcb7acbfb64e61ecca;
 0x1a2623975652d476f4b9cadc4b85219268910c7c3b2d0ae12fd47eb162257f35;
 0x25f8ce30441ce86e6b21d52ca87463cec299a3ef543220d72bc2491fdc04c4b;
 0x1acdf0b48d8a4789a9b3ac5ff8962b16e9a56c880e223668a25018657834aa5d;
 0x14d3fa7ee1cd2b8be2f42eb6f4b95bb8b1d156d77f143fae3e82bb8c5610ea77;
 0x3a224f6470a64f294fa4dd67524de58b18f70812e093c0e1c06b31d758a113f;
 0x2c822aea71402807ec21db11a089668fce2e6c2d23174de3eb69484a53148527;
 0x1305b66e890e97e11d52771a60509026baedd0e0bd5e797134259c748a289995;
 0x2b1e80bc5e3f546f4b11399e77a0784eb7c439c546e9fba26eb6c77d89c14517;
 0x1562326a8b0d5436bd7bd173d3f9e69c3be74dc79270b4fb1e8539d584eac1d1;
 0x8c9aca89b447e7468bf1ea6db080346b6a6827eff1fb81392cde7f6130910b4;
 0x138e002e8c0c597550b72acbfc9c50952175ba85c061b7e973d87d979476b54b;
 0x317ee43e6f4e38796821ad2d55844d012bfc5c2b990fa48b491ef7c6372bdc3;
 0x1b60831fc11521d122d9cdc6ff45c7005e6a166717e7aa1685cb286c9ecc992b;
 0x2e73d35eba9b43a5100de17bba5c59d871ffa2a9b522b0645e283a89259d446f;
 0x22a4d3cb7750e5f4d2f0381294578f698be7d678311595793ff6f1ee3eff2df4;
 0x2471b7a969af295b9d407634a486a1c82cc273506d89a9cd5c80a53b40e1935f;
 0x197b73e1d792a106452ac3d31fd02b5e1617f5442fe26bef5fffdb7e1497754;
 0xb2df733b3541c788362a5debf818a087bd9c9a9d39c1fcf2564ad3980bae8f8;
 0x1cc66ea285b3c09cb4653283b9c6ee66b7e7a3cae20cd50315dafe3a92113a2c;
 0x25b6152ba9ebe836c2f5679d0f891b30b96ae3e06a6132da2f6f6d212fc4b52;
 0x1a889aa16461370a4e75ea6bf7ff9405c29656295996b0b5884216311ecfd7a2;
 0x1f6faf41cf708d8307442a5194c1d38dc3e833ccc4ecdfdb8aa44c5e9fce566e;
 0x170221e35fe04da2303dea141113f7711c651dca57beb7fa3624d2881085d7d3;
 0x1f4fd254340f9509fc1ce072bf795c9abcfedd5f80ad8ebea2726be474197b1b;
 0x2bb4fa69cd631d5b418837b9155db02d5489e7feb92b2eb5a17bee8031058780;
 0x2fc737a4c1073c018432cd0f9e8bc5b75c19f94f554314251d510fc788b79d5f;
 0x299d38d16803616a9065d1820e2b8608280e8157f7e9ef5b954eb3d2beb2646e;
 0x6e8fa64f6f9e2a66650e0f002b2afa7e0c2c9ae417072c68b8f1f31b217bd67;
 0x151e2effa0eef7ae28945060179f4aafda3a50635be3b3cfd4252b5ec9c29449;
 0x13f225ff220789cf3d9547f15ff5f6bd6b057570636e25cbffae7b707d6b3a6b;
 0x75f0d5b2f3aef1e72cbe0d0b406505ec9a0c2b61f37ac0fac82b44d9fdd5f79;
 0x26f491b65ef18ffd2382c44ed506a506a375a9049e2f6fa392a837f3004c50d;
 0x26916c460b0e2d5697914d1652fbc3da25179b010a1158e546de85020742ae2;
 0x178e270b0c35c5ade3457fa5985c1295f64d458a2a25fe849c7eb5b4bfc81348;
 0x12b5fb7e1894d846ff3999b3f9105329a9cc459d5b605ed00f333da7b2130905;
 0x138f42f4f01f4b059cd6cbd6afa1aad443f29893e24313d2fd3b0e61a378cfa2;
 0xaf68a2bb5f9b6fb492356bf6a80f40730056bf1d85424614ae9703ebd20ae87;
 0x711a1f848efb7d202068d15ad1825720c2b82bb2114bc884043bc38d727f6b3;
 0xf7275b3afe158fde58367a5036fd26eadb8cd1c646afb4dea64fbf1d80e1f50;
 0x455acba2c77be3a518fc64f7977ee3c646b30b534294726ec896976d6a16529;
 0xbd261d1d46c99febb2cb1bd70ac8fbe0129528be059fce75cdba328f73d7348;
 0x2e5aeeb04dfbbf5fc35ddb3712549be8e643ea1429fa000872af2ed500152719;
 0x1c86ae64c468a452e8c1c2d5208ba6e17378cc3237380a48279889bceaacccbd;
 0x2acc9d15663027fc5b4fa467e70c3b476f2a07a6ea585caf7287921100567a40;
 0x230d03be86fe9114145312605773dcafdf71b97d8e2cf9e9ef246106b5fb1459;
 0x2ab60a4154e2261c6e4e82b20be3e08f7613cd334dbae29586e48c1df49ad592;
 0x2328aa6369f0af736abace3f7885d7dc566c39ef831508178e6d62bd4380cfc1;
 0x1164b8dce7e4179ec0e294da56e5ab43de2c20a75d57b8e583ffea2349e62539;
 0x2491cd6f23416063e77171095c0db217248a2c00adc3e146ba32d9ac2b941742;
 0x1cdc848d353fc772de151f8656a7e2e24b7fda385568d6596fe81a303ea208f4;
 0x2a398eb8ec4d3bd99bdc3520db7341946d4eed3a16f6faedf167905e6552884;
 0xb07f73cc8432e1f9e4095e392359fd46467f9bff3e24af5bc4cbe9b17b43e62;
 0x4e964ad5ded274940fe678e4f72079ebb09f289b8381bfa71d7c8ef0605954b;
 0xdb2a3aab326c1344771f4c5f872a050465f87469ca27704fd93ef3fe5a5a1d6;
 0x27b044fefd92da8972a60b0297f9b93f291786a749fef1e29f8ccf6bfde72564;
 0xc6c0bf5ece0bb9be0737e0c94f9b10594489ee5c00676e51f31781155ee8729;
 0xa36c8af931781acb11cc6922f0bf6e28ce01a1a18ee990da3421a0a9aea0147;
 0x255f76204e6137ac12ae576fdc49baa054ba182678d75a0a3cebd01d0cd6c286;
 0xaa31a68117f221fbe1b609d8e269e9ba1e9ac228e2e0a512ab9c774a3a63f79;
 0x14151310e656644c86a5cda7620c6440ad2bb09688c70530c1ebac60d96d56b5;
 0x27b953b1de0e30a1a423405b749d830285bfea294cfa1d3e11b4cc5801aaa640;
 0x30476b760f0b45ab4e5b7bebef2cceafb2b06f3b4193fb9938c946c63115b008;
 0xb70ffa00f97a377990544d9501602376ef9a496ab8dfc44856306bf28a1b920;
 0x2861adb9067f446db45b36bf93ab6345f53e07746c063546df691604ec026529;
 0x33e9b4274c357a8c6dd61a3e30236735b5a23f396acb52d92d6685a5f03ef67;
 0x28b4e505d5309e29a6da8f94fdec039ac44b43110bc0f8bcde42bd833dfb0d31;
 0xf6fae1122b219ee0b1675ee8bb5c7c48744954e3dae2f9d5d1ea71c0edb0a9c;
 0x2b4173bbd542f1b89fe8d3478a050e81d42fa495e9c96af263aaea3c498e917;
 0x8d72f5f016ab29391344f20b821450da912ff016e4da674ff97c5d92bd3a1a1;
 0x1d9e387998377d9e680b0b55e8309fb8a29719551de783c1cf817cff9ad6a90b;
 0x1424e2acf5db0d91956e15d5b5dc4132ad6c4fb863c9c8e572bb49feeebf7e22;
 0xb3db34e4253558779669b849ef2fab55ffc654d4f9f770f74cbc45ba117f483;
 0x1269861c49d7f3713673f6fec4b57436c9059aa10b541d64aebdbc11e6513f6a;
 0x2557b7a318681664ac27c48349b1b5f44892e5ad02c8b81493418bdc66517342;
 0x650dcd4d3610b1d776d673024e679b6c76b5cde0b985091ba00e1cf4eb26062;
 0xeae77312a73dc3ecb243143ba64f7cfdc9465cf00fb0872958286430fd41aa;
 0xf43d99f10bb7c8d851384f5215bcdbc90489bd63c9b4fa3ec48bf1851012d93;
 0x2d95bd041d1b5522fed823a5d9d607d7afd455461f33bc8c1404ef348221abb8;
 0x2fd83f519597b7e807ab80fd8701dca3f4085957b8f2955f5df79c24f00a1f53;
 0x25c0c9abd576c803e422eecd77a3ca4f63a32b9f90f5366ed37658eea86f271d;
 0x31509bde9a7286eed15ea23537ac72dfcc35a9f4c8cdc92baf39dd7cca4939b;
 0x2f6692e9fbfa0ad64b3f748425ce43c3c69cb5e4c13a0ff06c14f2bb75141af0;
 0x1aa375c879966cbd87d4ce7089e354786c6f2a58e26b97c760dfafb72df9c5eb;
 0x2f14baf1792365a476c4c193939244a6a4edf35f41616bb6db4b2bf511642a23;
 0xc1552511a3185d9730d9ad3a86c6dce629f5871d7e9ca38399758b587830ece;
 0xa499163b884b67402058e13910d1c89873c952ea1a7d1a3eefeaa22d2a37d7f;
 0x2cfdadc4634dc875e4c2be0f579768c85b32e5a19baf3b5d536a3d10a3199bfe;
 0x2ba9818b35db18cb7631164687c593c9badacb53bf720607b46212330be420ca;
 0xe37b0ae73060dc2b5f671e27e14a7cdbf6f37b7a03e69654bee75a9fbd52c6a;
 0xfdce2fc3a75a381f6dd84b4ca5f9753a5f0f8bebf5cb6e606c59717aa7b814;
 0xfb5a2ddc03041dffb808a10877d437c2764240964c2edfdbe545854aae282af;
 0x1ea4030900b9f74c33a53a950d21f40738813f69e8baf44444d6f0a1368c6d85;
 0x2b26ae52bbf7d41a66d984ee37a40c95129c4949cc74ede40fd7df3f3bfc7714;
 0x16062ea8f9c3d1bc9acece3e3afad961eaf765069773e679240dd723dd4530fa;
 0x78830573fab36a4777b4d82c044a60d06fc2abcaac1826fffd2ce0630d00eb0;
 0x2f17fdbeedaae54d1409c5cee2a3f3ded005fb6f84db8eb600111679e471be8;
 0x1a01b0c5b209af90e35799cf630441b0fe38394300a1dbdadf7e80230425ce03;
 0xfa20a26a6950d031e20c9fe19f1317c0e694eb4397a25fdf97946bfd66e5198;
 0x1b63869e274926ea2e91c0fa091b7074d5fcfd9987e887614da86eebd6b42c1d;
 0x728043328557038e7370dd984a822050199193a7da9c0a670af7af9094382d0;
 0x9570a7f7a06102b55bcfcdff64c42cf2ae994a20254054abecf6609318b3707;
 0x1c2ff23fd6d0090161db54a99810f76ec767e2db6e830afc9aabde9614829e6;
 0x7faf7d80752f501cf0eccc6bda01cd349376330df799ca842ed4f452517f6fd;
 0x2a25dc90d45e36b9367d207e45be38d449034231ed7c6422d2795baed9e08d3f;
 0x5d6d08e40d2741bc318cfdd961e62bd5b1439145206f49aeb0e8bb68a244851;
 0x9d7b3f8a46f030b3b0b27bdc77d990cc642e4f3dd667b085ef114d08bbda9f0;
 0x2d17960ecd06706c37ddcdad5e4707ddc0385d883f08fe7c8b36659d94ef85b1;
 0x15f2471564848a163204b074c1dba4c518b1e9a4052a3a7e5d9c2a0e77e8ea99;
 0xbc29d644405d0cf3ef18b311474b8f6d0e5bb9856059ea6b908d8eabbbe4a3f;
 0x1f3cc2b9a666ca5dab8bc17436762dece0ea6ef3becf39214992627d49595ee2;
 0xc5c7ec0b72c7947f7e1129191a11ea5c2d21a431561b3ee1513d0fe07b6b5d1;
 0x1b02b02f8547bf62c0250622fdbf6c094909fc25151c3941b5c8c2e06d675be2;
 0xd3213b732109beeaf102b359db224d86031ea2bbe1406f70b654eba980ab84c;
 0x15848ecf21e60c3ec1ef45998777202b708426a72b03f8dc4e5696dc74eefc8c;
 0x14dbf6efa7caed2cf9ec698db97e7552c62b386a3483ac39028be9fb5d6e3b0c;
 0x2616126b746c3d8a4dcdcbee6d4bb8c5ab7a3ac8c5c5b91a654747119bc70ae4;
 0x191fe12396efc23ef8865e32908d76c09ab0fe52a4665554020b7ba659386297].
(* poseidon_bn128_constants_opt.rs:2458-2535 *)
Definition bn_M8 : list (list Z) := [[0x1aa4d470abeaa2357079129d114bab1170944f929fc178216ad847d4430f3f27;
 0x254b8126f45243f14dd8211df41fe5516b35952d56c62678c148e73cdbad3718;
 0x270712f18b1518fafe093660f492cdbc2fb70ffab31d8a4d8a1934be68792369;
 0x2bfc3981a249aeaaec4ab9001727d32d4e6fe75598ee964fc85cf30d50df584b;
 0x16060a17e1b11f851ceab20464572b3d78d582ea050014843101485f65ab723d;
 0xe73217a106c402e4c6c166cd9ef1fd2a0b16ac1cb43646bc1c726f83177770;
 0x4b959ca07e7182ca08f2351a03545bd7ab676f740b02331637ea1434c8545ec;
 0xfc9cc95222f92715cf7476010225e14cc38f314071e50e0f3bc9ec674a8aacc];
 [0xe1f4e4d26e9da5f8ee3deaf48b493610be61d7d3db1d9754feca30879adc644;
 0x2089c597feaa4ca9a202edfbc823763100e294c9e33000e513b2a216491d474a;
 0x107cfefa1e864045a668396526ed9f675b2bbf272ca635d8d3e8801099bb97d0;
 0x21630ec3f236ed219f73cc617b9f8b267dbee99a63c528544ea31b27cde49fb;
 0x2741203d66c523c7639ea713b20346119c961cc1e9659a458af74cbee16d71bf;
 0x17b2092b0f634576b654c6de21a1a8d812bd4c01559fff83217129082e2b2b20;
 0x68e8e63411df2b3a9d7c567f66419a580d3ba15bbfdd1226effa3fd6bd47b3c;
 0x2f5a2a0cd0cb24896c94878a8106d57e82c68dcf1e209167a45ae9cf8570fed2];
 [0xc298c14356a5a7f226c5a549e59184900385aafd8ea41d9746729964ef75f34;
 0xddeaa906cb65f3e9c9bea6344dda8db90c253c0f7f99ecef88786fefe0e5cc3;
 0x4b96a296a35acf415929b8784b6bba64a630d29dff28b628fc98ef708230b57;
 0x28890a03199b727fede5ed0090ed69494c053c97930fbb6c52358b0d7d104c16;
 0x2208c5004806c7aaf58314590bcbea16168fe62ec0497afc6bdd2938c12d9a23;
 0x2f24d609cb23720eda55fae29ec6f19902c42d8bf904fb656202736d97b2eb69;
 0x344d0c772c2f053664a7b9266b19d48ae5d2ab3d1c1a18150754ab4b836afd3;
 0x2cd19b5c55bab1809e52cc9fc1a038c08935da19cfc563e7048d6bd1970a0c8e];
 [0x19e070982d3ee675e1622ca20d13b2375e528b676706882eb8f1afe1c5045ea1;
 0x1114c9120442750493d999d4dd45dbd4f3b75ab183209235396ce83d8ee9916f;
 0x1f0465a9c133a1c6805d705be6b3ea9912a2d062c34dbef92de46955b83e7bd9;
 0x1b80f3f439396c2f466b8e9b25765a014970455a1beaed7a6fa308dac75fb582;
 0x1c01f6db435dc4885eef9cdfed193250b9d3eb4cee366674b07bdd194ff349fd;
 0x2df183fe2bc9b8b75773fa961c8d4117e582a80b656af5c58763e7024ea4189c;
 0x7e0cca1a35ed15fbdb619bfaecc7a9a8f4c51293927562acea8eab817c6b84b;
 0x24ff2986781fe40ae61e8f5ca0ef17c5a5ea7bddbc127d431547c1f6a8f5cedd];
 [0x333e2923992e89dee570a650125eda75a20a72e69e10863a19d17b7beea9295;
 0x2e8b35a8c29e639dde8dfd49b4b347f00ee467863f6efcb355fa1534ef70783f;
 0x27a2b7f5549e5eedb90105c0f8e20f0571ab7af0801f1bdd23eaad91f2229a13;
 0x2a4bbad245a33e5d9701537f751410e4ff297b8f1d1d9098fe9c518c261a1b0a;
 0x1f0e36c2cf9ac2c4388e74966d9ee7d1a0b3186916a08cfa306f6bb36d21e548;
 0x15fe963f5bd0d92878c10a894e118018db82e63528afa4d4703e9881eda118d1;
 0x222edf3e26bf74b2f503983189201d4ee8e6d6fad341d7ff50748dd739749df6;
 0x12a87d0c5419f448419840e5e5a92d276ace00963d987f2a1008913d98a27114];
 [0x1944aac72bf6fbcdec04361238c3c4d9510d5f07439a1b6ff41f652990be0139;
 0x20e6cc613ae6cb0a518425f53db1298a7f8859ee20aad08320d0a4f9bbfe8512;
 0x31b0afb7ab2f1d241f882178f7dcdad48591cc67905d651dbcafce94b14d073;
 0x1e431f2b1b7edae4f8cbb5d307bf5131c352c2a215a870d739617f4b017c6d16;
 0x199fc2be60e49e679ec2ede6cf3345dcb3b918e5b3e07c2cd8141333934e178f;
 0xaf594dc4030e8509701fbd3d8995f73126ad72a7af0fff344eee82a31ce77ff;
 0x2d4308b4823b465db653d36818181209d23cd12f844f72f7548d49e55055a601;
 0xaf3ceff2c865a901b9406d5d9b2fc58833d642f46c6493ca030ef595061ec6c];
 [0x27d802ad019a42fd04892ad167d9e83596a730605890401319661675736359f3;
 0x2420dd1281fc0dfac176a752d15906b55f137b9cc320d5d5daa9df3f3d43d3e6;
 0x22e0323bbbdace5fbc74a0b3dedea6e1e3bf10e84dfc71fe395089ac197af744;
 0x255639889a259ebe59f74a8fdf2efce7fde1e3a666b35d8e6ec601d4d0b22689;
 0xa38d163b8a2fa3092999c1797b1af909bd971a25a656baefbdbdfa3628e678f;
 0xb8e857d9fb1d554f3a4ec307ad907de7a436438603af1b28d4e4ee379960ce7;
 0x2e8e67fc85f9b4d00e9e1197b35bedf55afd7300a4c370987c83c15cf73cae3c;
 0x27f42d86842f4d8a8c3aff2f47ffc1e179f097aaecce55bba0b0fdfd5b190aa7];
 [0x2bd05a040a0987ac6bc01f67242d54b7a2c527a970ad2815b273471eb9623e73;
 0x17bd4f2726748d99925af9a2f2929e231c1869428c13b1e397bb0099191723a3;
 0x1eef36d62f3f864eae67c63324e47a6344e33a2d5bfb82f05bef9900c54e745a;
 0x2d0d8a814cfa16c2323f174be2dcbe0c295829fc59bf2a89f13b4ead0eb056a8;
 0x198949eef2b27c2b9c3d699e3fe57da3d5b509c2b670afce400aba1aaa9ed51f;
 0x7ebcd25a10e56693a28155fcdaf7b3519d9e0e08241e21789696cb76ee06297;
 0x22f1bc4ec138b596128ce5ee5b8184964cc262318e17ad21d45c552477f53e61;
 0x2b6b3bc340d4119e57831e4a2187013f1216ab3b639945dd92a984943241f1d0]].
(* poseidon_bn128_constants_opt.rs:4580-4657 *)
Definition bn_P8 : list (list Z) := [[0x1aa4d470abeaa2357079129d114bab1170944f929fc178216ad847d4430f3f27;
 0x2ed795314c562ca0b6d7070712495423ae6bea218cd94677d06e1043327d5d11;
 0x1c700c219b9fd0ac323c67f0960cfa94e637aec4a5b68c8c8c579da52123752c;
 0x126587f4ddc000b06931fd6bb92c2497aebd10bf7d001a3f664c6d6934225f1d;
 0x1d322025a71f8a8445b7c50d8020f3d755b7ecef465abebec16e0d391bf9bb8d;
 0x1d3fa515e56ec187ca7657d279ee613e0f993ad146ee2b37f12d142eb8108e07;
 0x146acde01679ad962ede1caeb39836b4d818c68db52a9a1cde771be24b2e5e20;
 0x48997cdde9b1ec6f3bc2ef708b27929596d02b366f44386093108703f4a6106];
 [0xe1f4e4d26e9da5f8ee3deaf48b493610be61d7d3db1d9754feca30879adc644;
 0x17ad6adb37b2fdc36e43baa800fc4a0fca98a20a2ff9c184a838a1bff5baf530;
 0x14583143fe69954ead766939d693b018c9c6d99e86ba2002e2960640f993f19e;
 0x9664ce4670db8421617eef97a4619d9914046ced174c5907e7305424656d460;
 0x51301752f12f6de8c23dc31745b2b19b9bb7c39cc1ea08d08738c36a5e85885;
 0x226238a28654ad973e1a259a8263c6b4aec4209093ce8e563b3eadb0f1144170;
 0x1fd98a7ceef4a6d3b32de8b124c7e024e57c37498fbec5e451b92f5666a9e441;
 0x1f471d25bb7448b69310b975678ddae2aa9080ef691242dc6871e6a680bf6a44];
 [0xc298c14356a5a7f226c5a549e59184900385aafd8ea41d9746729964ef75f34;
 0x4ef313ca88e6a46eb38c9aba804ec4264f79f1dd0c05857bbdf427a86de4483;
 0x117bffb0996f3b8796bcf62f00e93cded9b3e7b07180721f2c01e53c98502f42;
 0x36d342dca9ebe248ef3674d1399d5cb02a51b6ce92efed9de36f2adfc837cd9;
 0x1521f1fad861eeea8bb068264dcbe68a93abb6076fae2f9e17066e4ff5be87c;
 0x2d6baf82ccebf60b0fb1632990d9bff876ce740798a6613203cb078a9ca1a532;
 0xa2ce4bc27cb25682f84ebfce048f14689f31b45e346b713dfe35716b9447431;
 0x1e1b9c1ae86ec688bdae2fe7788b7311114a3a8d6f8d7fd8ac4d79a3cbb38e4e];
 [0x19e070982d3ee675e1622ca20d13b2375e528b676706882eb8f1afe1c5045ea1;
 0x1562e5b3db42e4e28c9c3c085cfc8fe652b68e8bce182e6e1c84ab02661a8cfe;
 0x1abaf63769a9a837a0d09e1dc6efb2dd1dc312b0c1c4a8c066663998ae04bda4;
 0x338e5e98906f68a17cb1852bb77b5f42f287cb74e3afdb066fe966889db200c;
 0x2d74e6c13b0856c0dd85188c8a80f41dca1e9791b1042521e7bae94bb36d499f;
 0x7672fca8816914835cccdbbee62aa422a95d77118fe52444b5af200af0e00b2;
 0x276718d84a065a288179b23b9b2d8ff3f6e55cbf97d873ad1f7e9a2cc8a09649;
 0xa1bd98c224950369af79941d860914b7cfcca9596899786e6bd0889482641bd];
 [0x333e2923992e89dee570a650125eda75a20a72e69e10863a19d17b7beea9295;
 0x1a197674d40c43447787e6079278b5812ccb17996403315e0f06230e2dbe016a;
 0x1ae4af74d44320001b70a0a230327d586b0319d53a839f5fd27fac9169085169;
 0xb169fad164bc7690cbadd1ffb6ab2e67be46376d16629d663b0b83ea7b7e4f5;
 0x154b82a74672e1433c3417f9cd1c53d4ec0e4efc9d4c2655eee3c24e4449655d;
 0x2c54cb56058d37bdfac59708d54a16c1c7cef8012ae5d1cd83d87140ea73adeb;
 0xaedbd439fc8a60c641e55ba0f17880e00420bbbe5ae332855e7be146a0a0b24;
 0x1b87ebdbf566fc8747d2430b3c45edfa8ea4f8c9770230ff4091f58d6cf6b61f];
 [0x1944aac72bf6fbcdec04361238c3c4d9510d5f07439a1b6ff41f652990be0139;
 0x32aac2605d772f1fa6f328379ca86f4368bf679a39937cfc508a58e982db9a8;
 0x3a38b1fc1f632c027894c17bbc4702d45616649d8e3759d1bd4239d89c9cfa3;
 0x26492ca60cbc803da9930bf40b24ab2136a9275fa8b299cfc2674ef08234ad11;
 0x37a36e914e568f3de0d6be824fb24b107bfc8c77ed767e707f8aa5f0199b205;
 0x5de377805bca799a16d073b79fdbb07a672e7597d16df2739345938a20c5b3;
 0x2eec7d749447d3df1f1c2da415cfc4b448b3fcd473b9cb5891f36db1c33b5c17;
 0x5c539bdc0b98fdf23e2c568d8aa039f8d4e200a6da374c8e764b530e9b65d2f];
 [0x27d802ad019a42fd04892ad167d9e83596a730605890401319661675736359f3;
 0x1e8382dcf318cd0d7f58ba77c1e4641ed3412a480f0b779ee6c9b73147b09d2d;
 0x5fe56b2e7f2cdf071f3a588f1c604b2ab62cf34ffc1d2c72cf8a86079f01fd4;
 0x177bd045809197d7bedb995ae85f213e19c1e301a646a8caaf7c9f3492042b;
 0x179ab9300b69ae8b9b7540f256c0947b8dee0e53289ed0b5b7d0ef09fd10826a;
 0x2c2ad35579f01d21b61c81721de5f2787950facb1755abc12e63b0ade9c66e4d;
 0xe78c7c5a33ddcd2ac7aba36f3b50757bd7e867f9e6775bef50c85632f870959;
 0x2010d6aaa2a1cc21415a72760a1a9d8e1aa82111c3f91e1a35f2abe8b79f2085];
 [0x2bd05a040a0987ac6bc01f67242d54b7a2c527a970ad2815b273471eb9623e73;
 0x2f337068a0ab32fb994362be568487a5c9974d9ff203f3db13234838c8246469;
 0x305fc4e93cd1c823068e5063fa983fd71a9804864231e37d61035bef75f60188;
 0x170e3b120459d017daed43224c80f6425f59ca2260178321543bb556d501c090;
 0x1e1ceec2c1097c4b47a0523f89c94a42f52f2e011da379b6a0e57ad09973e16f;
 0x13e72b920d7df0336d643ff47f37bc44888b98f7ea8064d5c96f8d39d11834e;
 0x2fa9d8cfc04dba7c7f80eae1154d535657bc7015459a3df9dbe47ec7044ec009;
 0x288ac5e38d20b5159d4c37374d8ca702decbc6265b6396d30b2c2959ae2af9b7]].
(* poseidon_bn128_constants_opt.rs:9372-10331 *)
Definition bn_S8 : list Z := [0x1aa4d470abeaa2357079129d114bab1170944f929fc178216ad847d4430f3f27;
 0x1aaae08b891f5b2046c0e697f481c70f34b0c71e81cadc7603c7e5d31139d196;
 0x2693bc2b2377f44f7d8c291f332a6bf184d993289445a794fd3f815824c7a4aa;
 0xfa4b8bf58974824edb3fb2d26038975f49c2cf84050c8208ea7a30aec1cdf02;
 0x1746022555831c140765eeaeb08a06bdbb7e2e65f5a5f70977d41f0f2a18b757;
 0x3004430cc176cbbe7f33aa7eaebd01856b009f291df0567d4fced835382f68ca;
 0x6406c73da9aef2475718a34075970df351312c5203526d0e55bb00aac90c6f6;
 0x27db71cc71c8a22d6133172f19b8bbaf0e37ff0772a58aecacd25e869675c3d2;
 0x25a9cb700e5decd6dc4544b9c5e3b49c0e04a8d1f8557e231da51d8bc228082e;
 0x1f8b293768d050b67db5fd50be414ea637f6ac51998971b57ecf4e4db972fdb3;
 0x537fd07b3ac0757eb471a2745efbccb327fe00df9da4b4b37ce2798d5441343;
 0xf3d208e42fd3d45dc0bf71a72621a3a1f735caa82faf0c3829e666889211ccf;
 0x21b6ec876fedb5cabffce8f4386966e8f1bfd0bbac488ed7c3a9cc73afe3638d;
 0x95100091241dbbbf7446ae4b3d1cc2e00fd45c725456edfbaed74111168db13;
 0xf1cf912f0d9e8be188f3d193aa91b094e79780511c3a3853b6f20c771a1051f;
 0x1aa4d470abeaa2357079129d114bab1170944f929fc178216ad847d4430f3f27;
 0x1c0b352556b629b1e64c6e3abac4b349c05801e9fa43439fd61a8392cf186509;
 0x1298fbf78e8967359120670758f382a8c951a8d2186b96e364e9b221d7b121a0;
 0x32529e49b3721ba593bd059db34fc4c01b5d036d2495b6d3221456edb02fa3d;
 0x2dbd37ed630dd234ae12f4c3dd4d106e277497f79cb16a71b4ed871d708729d5;
 0xe9a1b9cef20c937bd369647f84e2a310bd5d83e8d177ca9c7ea457169745b77;
 0x2f25b164c0610b5cc1a2ffc3e962a54ab01e0632b062e87a0bf249f8f7a51cf5;
 0x27b73694b83e0b1c06069c9cc1fc20dba1d037e481ef2161a30f4de74c4979f5;
 0x1aca98163961aa6b3b4bbb40fa812c86822948bf91d38e606bbf5e1dbb732f2c;
 0x23f67b87edb5d48126bd42b7f2a9f8be7db2ece0206f97d840d28dc3a4967c0f;
 0x2d7104faa91a3300e3ec93486228f3657b0aaa7277f0aff4760d0aed02ca07c;
 0x2f948955cf159477c7b411b0a868b9ae9a56a240cc20e40ce1a097a4749467a1;
 0x105151aad6d4d7960ffafca05d4f8ab4ac1930b222fb91eb9eaae07ddc18ba84;
 0x3cb3379d04500d1996cefd61c5032852d43e41e87148d92329bd98003fe5d8a;
 0x12cc617757c857678ec716ed94050bfe192215d9fd76be3bf98b65401e8d12a4;
 0x1aa4d470abeaa2357079129d114bab1170944f929fc178216ad847d4430f3f27;
 0xc8716d8ded0a8c521da019c24594a1b859e53e85311efae748ec9312a0697d6;
 0x2e082be597fce21e7ed641c2a50feab6a4b26c6050cb7733979656d9a71988f2;
 0x1775849fbef452ce7a0863e715a67ad4361b9a2b72a055469333b0b8b8175b21;
 0x1fc8ebac9a5cabb10ecd4fb66339a2fec1ee8af951e69f5837775cdf4abd3e0c;
 0xc92dc16c65e5fc74d162103763ac39f2ca7ad692aa9dbbf9132b8d7af4025af;
 0x1e5b7963f79d2bdf1f857f13e667e9d7a97b4605846db4f0a26baec8daf691a3;
 0x19172d7e44ac5b1b381c2c893dd30cfda08c46fc6277dd38cfe1b1cc4daaa8b9;
 0x184154d48a6c6cbf9613d54a604aebd5820c53049749f533c0efd168e4e83e60;
 0x1ce093daa2ab71b132dc2d3bc1fdbfb91292c35f083d350eda02629f66eae2c4;
 0x12b07847ea7982e0e6dfb1b2864ac2e8f04ddf7d766c33bee75749015a91342;
 0x1b96c0239c9b6643850b8a653486e0df1d4c7f667a59ede3064e4b5068b44200;
 0xb053365816d9cc61b7e857531ea416ea33d60c4d8a529317e29a73a3aad422e;
 0x1fb9b2c50a99cd788717b3689d46c05e0d7dfa13c58f725a54851b1174c2278a;
 0x2c34ad3345bff455c0e461587b7332e19e0a9165375225769e8dbb2087391eff;
 0x1aa4d470abeaa2357079129d114bab1170944f929fc178216ad847d4430f3f27;
 0x60718f37a9480c0837f5a5e7c13eb75c07f60a8d8c1cf9ff30ae132251203f6;
 0x4f4bbea35e9b9001e92d6cf690b28e9c0a463382cb76c5b4e6acef622c0436;
 0x304a3b30d2300c7bcd5a2b7ecea51942b79b7d04bf346f95961d37dccdfaa238;
 0x626de3124c2c8f04ef55566942ffd3a46f2b7bfc898ee9c5313e50a3810a397;
 0xaeb9945d06bfb644e310b3109297f03f2ac002c31dea430b2a06666f4d93e09;
 0xb9264fb57be56298cdbd2084d379720375d397ef5d09a3ec90f29983f0a1538;
 0x17dbef787498ee541ccad5751663330e379ec632306e689cb3dd89480adf582c;
 0x15e36a3829fcaa26cec9655273017e83e621b84a1eac7be9a764638202a1724b;
 0x243a86766734068afe7659f078d7384e2ae7a73c2e2b6dbede12dd0ac2b71a76;
 0x19f171461fb4bca771adb125c689bdf519519dc2b7960b5a7caf07c1700f0921;
 0x1f5a2974eab40b787b5ffb6de24e939ec04b5bc31475cd803bb2fe0395a6ec5b;
 0x96ee06e8758968f1be067fb4582c810694a7205d39ac72247c3bc4e74fc02a0;
 0xb960361062101863b600c67724666f71ff5acc674628f46d840329eec2a20db;
 0x54f72b1aaf1f0531eaea95d0148b0525af381f598b075f56f86ac0f7edad99;
 0x1aa4d470abeaa2357079129d114bab1170944f929fc178216ad847d4430f3f27;
 0x15d5de1e8c0f0d18b7aad179279727eece9d2ff735ee49e3634167d4d440491a;
 0x16df68e36d342998fa4818e065c50d575012f4203a0ee73e155fb6f9c4ebc049;
 0x283e201525e86ba0ffe200bb698683a35d51810b72339aa3773217411af1ead;
 0x289ddd4c7635287baba51ebee25b7e42f98cad532e2f57073dd7e8465ace409f;
 0x16c3afd8596d8515eed82ca10249d26aa036c6abdfaa26efb7c98841b2719d33;
 0x4d76016f612698f913a86dc0749646b7f4517d3e668903f76effaa95351e90f;
 0xd021dbb869aff3f4fe189fe3015d9d5848393aa6f76eceff7f9d9a72a736843;
 0xe769248c92dd03d46e9e6ac5835329f2d5f7af5cfc5d1bd920f097379443e98;
 0x189d6ee4a5b445947e0efa11690f186e98a54d3e6406d880b7706f7defe167d8;
 0x2d9bcac46f7ca9415b13759c9b4cad42a113bc19565a01cb889e1d2d698c76d1;
 0x684c2e542b4e0c59a7f03a6d361369a5f6421a91b98b1fcf0ac1b7144e631b8;
 0x1f6608bda209f29ea2d9c7df3a924b661aa614e1fe034f6ff1ec18bba7a14f38;
 0x203c71fb9d4f1881845f258bf12de6153df99d35fa3da8cda1ef4e18ddc0a65d;
 0x2bddac5720ca5c69a727c029e4edfc393e4115f898b9da856f064321ee8e37f7;
 0x1aa4d470abeaa2357079129d114bab1170944f929fc178216ad847d4430f3f27;
 0xf415650a23aed782936a31cc331b3856b64768dc9b29c9a68a8904a08a2366c;
 0x2a3272896962e7d3fb7a1c783e24ad141781fcd588f4cdc319b3deaca21f79ed;
 0x1aa729490f697568fa8cc7587c9d92bd19610d8712eb3d31a03ee9a65bd443d8;
 0x102aefa3ca3e1722980dae564122eac6ed4b1534b65d6effe5503b615d7b76fc;
 0x8fec616df09b477c42d44cacea45c18644a68c59183933f1fb67ec8c452008c;
 0x6b5b266f1fbe4ea9237a231f8c28ea19723adb47729b6913b7af9454f23dda5;
 0x2d4a264e748b499d97b3320cffb56648af68616fd73bd29e1225e2c45c1163b6;
 0x2224e659d1d7f55a80406d270debf092f713eec67aa001eb50cd8b173a766988;
 0x20260ec25a18f49225f3accf1020805f5982f34b658c553f5f744d360d50d571;
 0x1a692c93319abaaec066616f97e14c1d511e86965517496540cc0391490b1b57;
 0x2189d255d9ca828ade6cef86f5de626fc2689904db402a6131066b41616c23c8;
 0x43059b6857affa85b90d865eb1a9a91f036aabe5a12c9a03e8ad87934991a09;
 0x2a32437cdaa6a32a0a3c060c2865abcd8cc2a79bad7efbac1cb8cdece412be75;
 0x1746046edbf4fae210a3f0273bd7cf58beabba4c210b3617b030f7b51e6f8f44;
 0x1aa4d470abeaa2357079129d114bab1170944f929fc178216ad847d4430f3f27;
 0x166371ee86c08d7d38a594cd70011ea1ecd01154007d555fcce5796dfec39e35;
 0x22f89213a0580e56569c73128c8a41351b42106d11f08b6f900f8c61e89e3edd;
 0x1b3bcf6322de40853b5647f94ceafa4b109dec51c81cd7a38b51ad6d96ecfa8d;
 0x2fed79c7828b5f8fefc7c73f312de0739c9a2081e432cf2f62731a5f02fa16ca;
 0x243db465df5d6d34ade58f233829cedd38dfb57101da284d42207eb4df69c7ea;
 0x1d49c10bee07998c64facc37ae50dcd91a17966b8731f2d1a34b3f78559bfb14;
 0x2d7c4a750b7000a296da599f89c4ea7729cfb85883037333e1b4526aed397cea;
 0xd4f4d2dd076db4bd67ac279bb51826a827742918d35aa52a5c1df7a3ac5d339;
 0x228901e5388a5c10531d4122f7e0772759d1e4d026379ec16676f45a64b818ed;
 0x111e7f5a746d046f4d7c19f2fb49c31255ba045db988cddecfa0e4172fcb2d6e;
 0x1595f02fae7bf2b328680bc0ae805194fe9ee83f4fdf4dd0d35e84ab29a122ec;
 0x2d22c9fe81fe2db64f3ba5cbac4957fada1f0c6a6a4cc883db4dd922d35906ed;
 0x21587d485b2624d0549a6f5de06c009ed06c5b48201d8f9a750c5e5a98ff19ae;
 0x24c33e212e7e9d3faf0ce44a3cb2113e74ffb7c28b45c7b4ceba5c1d6944a64d;
 0x1aa4d470abeaa2357079129d114bab1170944f929fc178216ad847d4430f3f27;
 0x187f5db526575c180e8adcabdda34e701463bf8b1596130c0c6b815dfb5e7a24;
 0x75eccf8b0d6ecb184e0f168c64404e50e013ce0df06bf31cbcef2421ed7b0e9;
 0xbf2f82a1b14f888c48822e147e332a2bcaf77ebb32d7cb3cdde813f0b1a373e;
 0x1f587a1be361522f8568d2109e0984f059a87317a35f7ccd7365c5d97d447e62;
 0x24a69effda852c7d20fb4fd8c3f413db1b6ff3979409e83922789cca594a462d;
 0x2ce67cebac6bc12ace86bece70ae7a5a59a97023cab6db35a0f8cb7110552ad4;
 0x2ef4852f4fa73b0c40c37118ee2690692f1e7101a78a38771a8686ecd37023a1;
 0x4ea49b4f2225a5cbe53c157c56f62973f394fdb3076954bbbdf30786debedfe;
 0x2e874d03cebf495782ded304d1f37903b06c3f834f170e96d26812be0ff52466;
 0x23acdefba9e5cff344b212629dae61e76e03a8a8eecef4e6c0588277f53d81fa;
 0x1173808e27354b4bfa76d6bd920cfc8309f1e9e99f997f773195070843eda183;
 0x29aea310845b4a505ea34932e7bc2a8f2b936c47fec5f2269a3c999413d048f6;
 0xf5536e4420b891f4cc82c50a833a17f0cabb89c3ae4cba4c28fdd5cb02e3d2b;
 0x7a3576f0287b2a1c0d832be178d43b6858a4c8989e30041cc143f09e2012fb;
 0x1aa4d470abeaa2357079129d114bab1170944f929fc178216ad847d4430f3f27;
 0xa260dcd98e220b61c2012dc6380f52adef96a11d38e7371c576d54563f7bfb9;
 0x224028c158b4b4adc53ae913cfd9ea42e4456690be5dd8d4c459779945157e4;
 0x166151c43e43373467888a2ed4bdaf3148d8ea2432d998162f62f8159cec690a;
 0x556f9ec39ba4bc77b183cff006a0a582adb55d52dd0f4a8c1f156b33898b28b;
 0x201670bf6f1fa62050110754b53b3d0671086156d9890ac85f40c69aa4aa297;
 0x18a78efc7a694b6e957b209c42d6044af319f194dc16451c6da27802e7f1c85c;
 0x28efacaa79a0af5fa9ddd71cc6a711629788664849b96ff0b42a61e2e43c87df;
 0x1d07f908b2ac7783f0d734e871a40be7b2e164afe885db6fd312bcecf4cbe9ab;
 0x8f97fb3cc640d078af3d17c569f37a9ebfa6f49c48db74b3d948a8675db96e4;
 0x2718e729e940dd2d26c6a6fc7de40b89927f8c9df032cdcc06ed4ebe194fd596;
 0x2c68ea4120e5abbe11f3b62801199cdd8686dbecdc52ca8a9458ba48b19aa6a6;
 0x2f39ffaf54a4cbf00809ff50047289530732279ea49607ee779fb149b87e10c6;
 0x130fb307c6cec609ab7c5f9bd5910a9ed9958fc11e443705609ef3066197a9a7;
 0x129a1c66d1eb5e84211c482bcaf70789e6d5cc473e1001dfbda059379f7b58e1;
 0x1aa4d470abeaa2357079129d114bab1170944f929fc178216ad847d4430f3f27;
 0x1cff973af21d88635ec9afbffd85b1cc595703ae5bd5f4faa6ead489d7aeea20;
 0x27ac0db61623f033dd102e118d47d847f34fe11826bc9d23d7e3e43386ad16a9;
 0x25ed2b22b59ed4baed8f5c957caed1fb52630971092d0af3ac8ffe5fe3a13904;
 0xb634c3abd9ad8e1b2da84a144207c4ddeb62c8f4860f65aa2209c1c0d0d7e75;
 0x2158eacda450c34d62fe6ed5e3c9e211c170f4c3bf4247c5caf0b9e2340e409d;
 0x1c0e715ac64d64535fc97e4d86b95c6120401f5c2697332b1ed6a9e83710afca;
 0x1a491a07ee1df9abb02aa300654e59bd34f593a15b74306b41c04e8b9530986a;
 0x1523cc6481931e85611b1844832abbf8763fab9c85130f50ab3075fa4f60762f;
 0x2816926c129f5c99a970733571d5c01be1cc18ec0f45bc5e46068f0d188bc9e5;
 0x2d94c81e271fb9800d333223a141c9e904476dec1f8f1e6d224ed49467e18a1f;
 0x1bf8ab0b8cefdeedac41738599d38ccaee7c03914364eb617b5421e9a51a0b27;
 0x21fd6c59b0f417453f2a4d669851364f5156b6adf104625f857681411bd04c64;
 0xaea3c50afc0806b117aa98c104499b4d84bee966a94865896a39b9f8ebcb917;
 0x29a8795e1f8f1e27e7e04b23788ac40e102536d56b57aa85fd1015cc21970f55;
 0x1aa4d470abeaa2357079129d114bab1170944f929fc178216ad847d4430f3f27;
 0x17e4ac7e489fb7da610506535bce04186426722fe24a261a3e286df2f3519b34;
 0x10ae4901e443ef76726afccf1c9099fc18001fbbf5d144ed721196ac9f2cc130;
 0xe60f58884bc252084c93a18b4feff245175727c03003f025100d435a0debb60;
 0x17de16da3692bd34ac4069982a1fb163da3119cc01d12c6f1ebf64db787deca7;
 0x78d14f36f6349d1af6d92afc8dd98ae7322f3c11993c59a225b079c7acbd4fe;
 0x2cfc356c4f60781e3cc83474da74607b9567ed3a08cdd7242ffec76f7d36cecc;
 0x1531440db56edd521c68fd2dffb627155130e6f3a2b47fde65bf8785ceea104f;
 0xc9d25b13772cda116107dc0c4fe9818b74f24a51f4bbca5a63bc4fc6441996b;
 0x28a4751755712b3d33f9eee850ccecea47ebbc32a1fd199fc256b69c04456500;
 0x1eb00cff68143cfad376aa8ec83216badcd664d55e990cb2d611fcdda52e4407;
 0x1bbcd528cc66eb76816135706b090ea3b46d45f0db08af962f17df4eb996dee5;
 0x19a41df7dae052bb5821aa4f32e9103dff752baa24b9fb51fcbe4359827f8cdb;
 0x6f34fe490adf4a07fee6398a39e84a0c32c04259c9691daba54ca4bf696ac5f;
 0x10cebd9c9c4b941425619aacf24419380dffdcc7f5326e766d38e72838be3120;
 0x1aa4d470abeaa2357079129d114bab1170944f929fc178216ad847d4430f3f27;
 0x214aea2850fed7223af80a5906052159cbfd07a30736ae5d95e6b60cb4989d14;
 0x15595aea45afbcab1d4d2e73c0a36cae9d2fb50d36cdfd5c0c127f95862add38;
 0xc4055b948c4a9fe79aff19190da8995eaa7c537a20cdd18f5bca5371d0c895f;
 0x202dc56d64cd4dd16ba2e50781fbf937803bccaf08b7ba8733eadb427c13989c;
 0x2ef4191b7deb37e92edd46f965bfcc66bc5a8539957f319958d91066c3fe15da;
 0x2f6942e918adbb191600a517edb486cc96e355737961c85e0d8595ecf579552a;
 0x2cd60b5a15f37871b552d8095cd8a6ffaf033b539d7bf1ae5f671e2ffcb9f2ce;
 0x2e05c44549c1ca99a8aa9e5ccf4726240f75a4060ad8a71012deb2ad55486afb;
 0x29b52fb3d57ee05634b2864e7b2977f7393906c12e903931531f95c5f4ae08f8;
 0x1a565be54d3bd12bc9a46a1e2853a18ed26d6744c98e5cf53c83e6600cc56a60;
 0xc806f9ac20225e54ea2ff82c73c6809497b46d85d51a4b05c46f667bb3ed592;
 0x2aac8b1272085c7986012bc5c7612d5b7eb5933a9140498359b260116290048d;
 0x1ef1b93e5e0c4bdeed8d40d74e84fb0ec5e8bd52af3ecfeaa54105e674611a3a;
 0x1a1fe313685a247b03cc9abf0f0ca133ea119ad01ef6a090baf774491a001296;
 0x1aa4d470abeaa2357079129d114bab1170944f929fc178216ad847d4430f3f27;
 0x694287a5d6c2f8c7e6ad899f7960ea1abd3aa7829422a66be8e8a1ad6bafc0b;
 0x2aa1bd4878e2ef8252ff42d595d2d0b59d774a98e3439d05682cd28463e15104;
 0xecb968856d9c8a1317c756d0e48d5b1c365e6eaf980989d3cf77d110237314d;
 0x8a950f1079254aa243fbd11fbb4d25fb0cb8a0c39bea71a3aa1c0df80943907;
 0x2ca441a867e40ca07b530a40b899052427bafd17c7a31d484188f96ea21cadc0;
 0x60117f9406bde6b52e0af3a54444fe9cb69bc9ef22405e2b85d223051852c23;
 0x18cfbf11b6c20bd7cb8fa67ff4c032c39fc2b3610cd8f90bca3e6136c6b04f4e;
 0x14addf2c0a38c601d30bf96a82d3fcba2ee369b0d2f232adf5da3e2bd2970a43;
 0x2677d87f29a2a948ca7e8f5a5341b56947563be4acc97c46e557f5c60eb84442;
 0x2f423100c2e9988b6cf5e9bcb1b2aac09d926458b9f1177f841977f39109c1ec;
 0x2549090369bcca257da260694265b951c15643c8103c9cc73fbb6b065db979a8;
 0x205c0e6789ef1fad3b8f1367cf4eb199b400b16499841e1feac1cfb774412d97;
 0x116a1eb2caf56acf7308b5b7a7ca6b98224c93a655d78ca7867a3ee170b33fba;
 0x319871e083a6e2cfa6a69f480121787a71853c4c6f772fab9dea2e267f3576b;
 0x1aa4d470abeaa2357079129d114bab1170944f929fc178216ad847d4430f3f27;
 0x5b98a534aa4041bb0c7e79ae6b2f5c164053b4c0a65dba7fa318a5aea8d22b6;
 0xdd5bbcdcf0d6fe99e9ab4774911a304957b461e3e2d809775da6d9c66ff2cf8;
 0xd5e13e77b22ec3447adb2487c15a4ced671076f0d0c0e8ebc9072f1d8e37b87;
 0x20468b6dc384b134a4538c25683b468c877cf30b1321dc7c39e0fc942dc64450;
 0xe2bfc13ac065e251caa703abd5362783941ed0060dd9d1b81f50c630dca8376;
 0xf300f277165a02ff123b3078e87e6251de0de93dd81e76e8f8197b949960e0d;
 0x19ecc98c331d8b440400e5a71e1ca2f830536b1900580b3348f3b7ce93f75a5c;
 0x2b60e2012b670944ceb50be1c78808ec4568c7c442933b21f125e9cdfa7ecba8;
 0x2c3e3476d128db70aba892a46c2061ef24df0ac74db004e7731b167f32697459;
 0x2eba0701ccabc0ab29863c74c80f1eb3f6a6ae79792249f4e4fbec63b6282e0c;
 0x1b821e2031ccfef578878ebe3481c9b5db9e7df929755b98059ae847b7871a1d;
 0x12424e45b885060002f66118e487a97bbb10ca97ee0414712f85f2154a6395a0;
 0x22dd55670c91344017558b62f32c530ef0f3387736514af44cd43812c3c3830d;
 0x18c607675f0a99f94f2e7b161c693472ca5963f71823a62bcb4545249ed116df;
 0x1aa4d470abeaa2357079129d114bab1170944f929fc178216ad847d4430f3f27;
 0x2d16a32d5c9663139709f054159cd7cf6f93c5f9133007b4ec8de3983231be32;
 0x1af2c4175ff13a4c27cdf6f91e6ee2d81e56a4d42d6c13f5e1b41d8f71a985fc;
 0x244100fc9f31adb4e58ef3e56c2fa32b5b534d42a226880d78eb3be202c9dd07;
 0x25fabd23de22009b978a089414dd805837cc0e1d2d68f919a50b7e17418f2151;
 0x22f32d43c35f5cb33a857ac06d5d9777a42b92268f0c06b26d68f7542a6b50e8;
 0x20b44788f504781a9951e09b497f1c1c2d2f723b864b84e74c1523527f48f996;
 0x17192ddb8a67bd2ccbb940532adb6e376759800df7429c45e5a09314e64cf7b0;
 0x116b6619b40c6172f572650a9566ed2b809164b994e388b6fc467637b61cc2ae;
 0x1e0133f2e4adbf08938a9ccc82fa3d3693316aada3b052fb02ed3900e1d730ae;
 0x1664c7e25e5a7d2f285156dee897b4af0c1446a32e575fce4d56a3cab23deb44;
 0x2512c8e3d7d525edbbd4bb03394bc4ae7aed7bab5ed55ce3fc4aeafc329b7f49;
 0xf5800164acb67ed0f6efc527bbcdb851e66995c9dd3ea18cdd9b54259f64bba;
 0x1e4dadc5ca72e83a6f54dc097f0c2f72d506ed77d576abce800858d48cdb9cc7;
 0x398b2ad87a996aec8db980123effebfc59ef1d35be0e6a7fdacbf3929551bbc;
 0x1aa4d470abeaa2357079129d114bab1170944f929fc178216ad847d4430f3f27;
 0x2e351fe58b5f36389df6c53ace1a5366d9c012a2ce2e0c4a9dcb30cf75f59869;
 0x290c7b5e749c1532ba364061abbbde22272b62ee90ff19be581c4ea68f58c5f3;
 0x1313fd3c761307310d30f5aa63cb0733244796351a9c6077ab5ea343e996a778;
 0x2c31bfd37ed16abb1583c403f09dd2a064e4d03f9487a076f496e0c8c5dbb3ac;
 0x10cabad2beffecd1d735b7284037753a85845e6fd5b7247f3b457ba9cc9a323f;
 0xe02a96e2faec73e916458f940919859a161b6b85894abe5ae146ea4d3736d10;
 0x1d6e090f0acd4da143b23f3ccc565567bdf49353b3416207af2096389b791b06;
 0x45f7f1687d62eaaeedbfe3fd4f725c85176968069afd815dda5778563ae1a93;
 0x2874ad2d5ff34d854490d2f41eb79295d0bd9befdd54580b257fb4f2da1cb9b3;
 0x201894e0f41d2f3f21a6641ff9e3959584a749648f98c6c6b3c3dc6e8285239c;
 0x1e51409dcf81bc661657b6f0cac27edeaa209baffb0c862fde7c0d0610506b73;
 0x2cf3f549a9651db991a798c7392afcb8cfff307af338cee2a501dc1be740598a;
 0x1b7aa8f35a2488bda1d6ee416a8be05035872fddbb96fa56645d0f63bad04b69;
 0x182132ead4b05f9e1a44e7422da93b1e0e94d5906a78f63469cfa1b0ffd06a02;
 0x1aa4d470abeaa2357079129d114bab1170944f929fc178216ad847d4430f3f27;
 0x863bf81ed562159fc915b628bb76e3bae663dc10556dae9cd432ef8de50b6f9;
 0x16eb9ab36c92c197c99c3d11ef6d1469a9c4f9779daedbe99a8e5f24c8f5c0fb;
 0x2a0f1728e8a783630378d81f1509e94bb9803a47a112d99f7a58c60943c5c97d;
 0x20b391efe82379701a0f86af56e5d22cd881f98d0ac433df14ed990881cb5ac;
 0x586a52cbe0c5a8a0c45440f80dc7fc52451e815c5b0f784bb25f0ce319a1c01;
 0x4af2601360cbbcef49162688f13409f2fb6026f4137a0b9f85d4e2272106766;
 0x9ad52f4be13ee678536dc64d24eb019da0f5cfb36d4c35b667c7ef4c85ed800;
 0x177a0d318b5c0b226c15afa0ebdb0f3d582caf9373d45e73c25ea6dbd1ef0e8e;
 0x1ad9d99de7417cec3a5d831e8a8cc4d633ba770104d76f19740f8483411bc837;
 0x69f24d59c4dbc2351edef37a68c5e0133da60eaf4ec85cc174f5509e4676f2c;
 0x2f87a8a8a421081d17480f0363088e6604780562ec2d97aa1780a7be1d7808f1;
 0x2c2318745d149dfbb796aaed50048227cb01c1885ab2eeec9897423d824e65bc;
 0x128ec586a98e49ffbb2a98e078eb12b4c504448f53a7c59a7e2944ce6636ac02;
 0x2ab7de0aed5e6302873d6cf0f642ecbcf4b84d263c5f60316ea0e434f518e270;
 0x1aa4d470abeaa2357079129d114bab1170944f929fc178216ad847d4430f3f27;
 0x642e786838ddb539b8b481d50922cf6acba80cbb8cd74d91558b4f7a59cfe41;
 0x1e02bec25bd53fcc6becefa234ab7a591e14d7e1b9dded90a1bf8bdfdee1ae72;
 0x261a2baf4b655675fadc57ed29369e831a3a236768779c26340007d048dabfb6;
 0x10b56d5ccdd0be5391c62cda87eca6a70f12f8465ab4004c6742beafa69afad3;
 0xd1e13710db39230e576013e5b339b6697349b6102a915993648b2097ad216d6;
 0x2d0bd075d622a9ffaefc6998e1d3a845ac07e8827ceb27da1eb79ff36386be91;
 0x17f840bc566db8a3debeac087e4c9d5db07e4eccd0871c09c5314fa935243f1;
 0x299f4beec86f210fa27d718f78fae4f2d94a7d0b1e029c92bb0e33456c572506;
 0x6aa7db000f3f4d915c35090ac9b1a90b269c8d90e76269053befd34b76c41a5;
 0x10dc89ce0e3e131a594f3bd90a12586629af838d2dd7cd9566a66785cfc7b8de;
 0x14e4b1cc172d23e0d5fc7f219fa43fc301be8d8702dc1311fd97f784d0d1d773;
 0x26390978a65b917ecae0242affc450f91c4649139b132aaeb1406b77a751216d;
 0x19aebfa3fa2b4cf836f3d9f5b672a682b20f82ef9cbf8f092608c22327f1663e;
 0x2917d6cbc77bba7388d8c43278a57baf86c1fc54fbf57d0dc985238678c404a4;
 0x1aa4d470abeaa2357079129d114bab1170944f929fc178216ad847d4430f3f27;
 0x2962061bef3a0b557f60a3af8ca0b4e6b44336359bbfc9d30149435deeece130;
 0x1ab2e3bd8c03c56d30372867a29a5017fc95e868c228c456e318ebb2a7c2de76;
 0xdce3071ee2164d465e882c1f319aa89d169d4216a2b3a29dca0d74244c36a5e;
 0x1c7ff77683589db1c00e5303d9568894c240201761b546d2aa38e6c63831a4c9;
 0xda3ad9016d141320edf78fb242fc386662fc9183a250242fbe72997646ede8a;
 0x108c858506802f97c0a8a005b6f3d0e73e56ade83d3e1ef9291783cebeb0104;
 0x18a041ad99415766535e735d35e2406d99f500507d44c121194ab5d62bb3dc73;
 0x804d788ecca64fcd1dc6eb9594fb8e91b5fc9027c2e0542369f2a125b1cd397;
 0x7731d16594681b792f143ae2ef1365e94c7f0fe15a472a29d71aef1760961ea;
 0x2bfa3cb90f13111146c89385af82d9051c4e02f738f2f996d2a5f1db712ec6bb;
 0x1fddcd4b1429134574b4f66c202cd63a4214580e654e739ecfbfa3fc3bf8b41d;
 0x886c258df023184bd7c942c2f273140834d867b8def498fb10218af80d66425;
 0x19ccae1db1a9300785f134702d3b1c8d13d9ac87b9c2013e5285209cb804e1c2;
 0x7a4b8155eb76363e05e5f00ff95defcbd37b94afd901c13045979dcb63d6ad9;
 0x1aa4d470abeaa2357079129d114bab1170944f929fc178216ad847d4430f3f27;
 0x11526ac8331c0fb6dd4e34233c163073d83300629288634713359b2dcfafcff0;
 0x2ee5b7cdcb61f59988e2794312192b8afddd8f8fa1cf883c998f7a782891dc7b;
 0x2b88c35e9f5dc25ddc81bc209216b88fb526ad94c189d5300c9476d0445426a;
 0x1947ffebc3ac4ac3ccd1d57cefaf6190f1c1035bc5ba84706dcce44d9706f1bc;
 0x99f8cc64e0503354ea12b5a678143fd74f1b4d69654c9a8baba1d58101a3147;
 0x1afffd8d0170799d162462549921f3c7344d8a27eea55b4f9397c509f59f0e83;
 0x2fcd5239954935486f68514bc4cbb30282b25171bb9227ac96ce5ec9e6486732;
 0x2ca2a102b6561ae65db852da22c3b486fc77c6a2f5583506720a328a3aed8e20;
 0x1002dc58bfec0fd85333fb805a44eaaa1b478ae253a3d4a57681590d0b52ddfb;
 0x139557f5ff664db54d6be4e42e0b4f7ab92b47d9d81da1307240385200759205;
 0x2c89c5c93e90d0a7039ca638e7a1ea5cbc2358e61044b6a09d103cfc9ac4d9c4;
 0xcd0d79c5b4c6e7875b58f2c619fc727aba63df991c99d25ad2f24beca0df141;
 0x184b385669595dd8fa774311e59b2abe04f59546686f74fec70c9514899894c6;
 0x1cf3e5292afd10a90414741ed3287263f4af9515b8cae7f41d45e4109ab0ff06;
 0x1aa4d470abeaa2357079129d114bab1170944f929fc178216ad847d4430f3f27;
 0x2e764ed9c7bcd1b4f7a64f1afd3efad5476eece0cbc566617cc52bc51885cfd;
 0x2e6eb18b75b4908c063a9204147ea1e9707791f2c6fd201d081703b4cdc97ddb;
 0x172b99d8419fe0858380c2295d156c711ccf85f150ed4917ebc0942aba4ae961;
 0x864eea049a1f9510949a12d9a6e74537b3aac9f670c50d4f4bb77a7b68d73f0;
 0x1f9a772d2f96ded0661156db1ac0bbb7829ad3cde0c3e63bb95a5a47d4a2ca23;
 0xe72ce0076500c498994a78879704743def13b87a1c78bb60557598652e84051;
 0x183ca9c331d42e15818e0dd9fe4cea99078e0cb54013eb596f798c3dc22c4e52;
 0xcf4da57b9a9c07ecd1427b2b437664b5a2e885e76e1eb08e234c7b12761beba;
 0xc7aeb1957239cebeb8c3f35f94ab2fe443234d88b99fa1a77cc669717410a30;
 0x120218ec06b07045ed6b079c2fa91b68cab9caf72ffef5816c4bb77cb3dca124;
 0x290ab4acbb20c93cf9c99d07c9fd3189dd8a395928cf9be93857f3be7a4dcfce;
 0x1da24af446511ae52972f6cb9490df5fb5ef6f0414b514380f9c645a78c8511f;
 0x8eadf51c905e829f936a2a68786a45c09296b064ef0764b59e05398f7601d65;
 0x19b72523f030bfb311fd94c66cb20d105ba2f1ff248bea6c3bc314cd4558005f;
 0x1aa4d470abeaa2357079129d114bab1170944f929fc178216ad847d4430f3f27;
 0x177f0b80a1de3ab56e24bf4f8e63b45b31685e1dc1da5e30553d6be482bad1ad;
 0x5b07ed986c2df68a97a40e1c227c2f72d5520271666cd41326394722b9932c2;
 0x24d2c3f8955b7a068cf9a7bf1cd3cc1f7daddbf2a99b581f3af4980fb1d17892;
 0x25838298a0cc4b774b6bc89dc923f9d330599a9d122629aa96ed251b5bf10bf5;
 0x2afd3dd5e0fc21f0d9a2926ae68745e8c7bdb307a5e790ea08872e878cd3bdcc;
 0x80f2fce3bab6286e19d950f3372e78d4afe22d2b2757373253b424858b37e6e;
 0x29ad15ea08093d81d74c6fef9f18aefa1a6915eeb05e47f4779c8c44bb17c8e8;
 0xe004451085075e404f3daac34818db8878cd02f134592adbed0cc081851599a;
 0x2c1793f6782d38379e1e1e3867db57bf514320c0e37fc2961e50ce2cd3a61c82;
 0xbf3dd46be8800ec0b7452c61319c2aa365307c9b7e9d955aa7aa1057e91dad3;
 0x2dc74ff53d61799295950b34ea3daf706a0acd6d5cd2ab7461ec706dba082402;
 0x12d0bf8b8fe9ecbabdc9464854f9df7fc9950388a9f68bf7920aebb5f0285a2c;
 0x1e939676347eeeeaa96e3c0bd51e14604ecd97336f72eb054c61fa71309e43cb;
 0xa5c3db062ebf2c84c384588b0e97a0d2431f7334ea9006436f6795aba6423a7;
 0x1aa4d470abeaa2357079129d114bab1170944f929fc178216ad847d4430f3f27;
 0x41b75c1586f0664a618abc2e19231f4230761fbbf90746fa7ec06d4a517311f;
 0x202eb00eddadb4c0761953255195ee55af32ca0621e408a73eec96f080f07d1f;
 0xf0cbd02267d601b91a1a62e5d54246f07b337e84661c9a7f40de79f8527e94;
 0x14f2c248139059dfe9f4d970c661fd17be54e8fcb3a7e2cfc1160288a01d3904;
 0x1ba2c5f95dfaf2df18985f49b0be1c1892b59dfcde7afcf553fbde41c2397183;
 0xe0b040e8c04374f4ff9c54e6ae1cbd79cf4e46a5a32d644ae35f95b6c924540;
 0x3d017d86b1b62da699920b08e0bcade7c6c365edb3b9b2ed28e1cc5c37351eb;
 0x23b785d6905e142dc5f955a2ed3b4f57c0f18c79b9599d1f21a9d370d323283c;
 0x860b1ccb980266b5c9800d56394061e4a39bb2b31d503e915c8e4f2678a66c9;
 0x1e3095884e8e3e82a4282d39e2020cd3f4dd4c14def98a1bb3e4dfba4f372cd;
 0x1c0063fdf232c7cacaeaaf3243b4acd8511f8b784129c8d6a7fbaca45477c377;
 0x2de234571d455023bde68bbae1fb69b62b80b889c8c8099beb25adef8da9f879;
 0x305e6097b1a9cd0761e08a2509895f2d6ebf453aa7f3841bd97809cfa9a46635;
 0x2bcc7b73e56788e3f70565b4168248b0321f65d941840f199ca849402bd52971;
 0x1aa4d470abeaa2357079129d114bab1170944f929fc178216ad847d4430f3f27;
 0x1d437882b57028c88c69eab64507b2649e1705eb397a4069781ac10151eb2258;
 0x1af1a36aae7b181df7ddbfb34e34a53ae40e8529c224ec940907fdbcf97522e2;
 0x2785516123326658487ced2a9e864d2a9372df4a480d96a810f3ae1246840a50;
 0x27d476e2c174e2eecb790e9d96acaf1b17c675fd85f84923f0bd1744a0f700cf;
 0x1eb090499e37004464a5edf2eeedeec40e2c2becdb31426992f382a1e1197753;
 0x92fe84aaf6c1b773c1e9afa8775db02848a85bed444d4133e1fca601c6c68ca;
 0x104d16cb816ebbc760c4b3e28fe8c18aed972dadeb94896a2310ff9d61d44e3b;
 0x2fa387f6bb06f1d9cd2e78be84286a7d58cfd870c5c1e8315232361f2b44cd0f;
 0x176b64eac41dadeaa403f9ed5910f11a419372fd90df93bed240c8f79ae5c550;
 0x2ad76ba01e94f7bb8412f271b92d24ad2d7efe5eed06b0852d8f53a7700022b3;
 0x1a8932f1b4cfac9286ce27de3faeaddfa0733d07261297a38cce6399d96fc38e;
 0x1eaa55a6354586d0087e1d042859f63927cf27def44830af38905e3d876ffd15;
 0x34c7817421f2bc213fd6caced95f1cf9b176473e8721a100b1b6eef4348b786;
 0x31efc323d83d4deceef06774dfe798dacc4c5946664b0431d54e67acbb840fe;
 0x1aa4d470abeaa2357079129d114bab1170944f929fc178216ad847d4430f3f27;
 0x9e3886c90029fe260f4a2fec7d2e1c9a0d07abe79ea3598a758ad63c20e807;
 0x1525c95ae08bd592e2e428803d4e6a493016a47943488b02a78f2d552d16c4a7;
 0xb1011a90a452ee3a6bad8aa9e4885a62472da29771ebb98cee7117ba1f0e77b;
 0x2fa5ca0f8d2c52fb2b4578e1efb6e1a77fffd1bc525809626d3535833c5001bb;
 0x1db0397e4ddd02c509cf2ed25df7b81dfc5ae489bb9415ccb7127a205d3e876e;
 0x27a3012fa6ee7c193ece6fd7692ee96b8e4c89797792262db8d6d1efd755dbe0;
 0x274e23c2c097373e9a0d952f34b70020e233fd2e0a67c4e20729a5fc17f88c;
 0xaef53482e7e1c25fb664756df6ae69506b5e7aef718b3b1486aec64c4078ab9;
 0x457365cb68df73941a3ba80edae9f25aa2250e63cdd3a3b86b031cca2134d8c;
 0x1ca262a197b5402ad0640e919508176a3988519d3bcf91b55930fed1fc89ea20;
 0x2131c2ae4df6b479dcf26ed81a1ecfd47e351d7dc790ee906dbafbd803991c4c;
 0x162bf8864391b12a2b1dafcb658fb94cbfc90e0bddf199cbbc66564550036827;
 0xc7a2f06399f8766bbc313a2f1fbda042eca4ba85734b4040db27cf4ac1e8ef2;
 0x2f9fa0e3320e9ac3cf702f8750b5bd1c71c697a583c34cf417706738314eead1;
 0x1aa4d470abeaa2357079129d114bab1170944f929fc178216ad847d4430f3f27;
 0x9f933726715613504e7cdc8700fac64aff61cd1899b4754249b7e61bdba19f4;
 0xebcc03b0c123f471bf2e57426211644f0098aac347c81fd12621c7187bb787d;
 0x246aed0e85ffca6527d79f2e223c37b5d7df029c52d38b340bac3b2d3e2257bc;
 0xeed1e00ab5b0ecbf337edc63d27cfcf9135997f860f96befc4198c56e59c72;
 0x4df1a4aa55992245ce955d325c1c08a841f727b9e9ce11cbe54835d575c56fd;
 0xd5e59bf9fe7755023aaf344298440987786568aa06aa9d03f8a33f70b227fde;
 0x2ffe56ed078cbe07667f7e48e1a360d4710d046f0bb51130f9b924eee01dc332;
 0xd13ed4075159b29a4d4ff4f9fd7d768fbd28dd4487a2bdf2a813540bfb99907;
 0x173512477cbd6d2a69801143d1e7fce3a6ce79cfe3bc2a2ebeed24bb7e6672a4;
 0xcbd4277bd737219d8739e4e818cecfb664e369782e296a56290020877778329;
 0x14588264fd7d1fdd6d4ae3e372417fc1ebd7fa434fb945fadc55ee805b81d3e0;
 0x14acd0cc6605c0c722a1d399ad5433d5450614fc3231d5af742ec5926c35e77c;
 0x14320d8cb13dcc09670d6e93819b69d7e66504066f9095ed4ff25566d3a066a0;
 0x1b3e47537a897026a989e433fb7c4eba62144a10781548577de3f370434b6578;
 0x1aa4d470abeaa2357079129d114bab1170944f929fc178216ad847d4430f3f27;
 0x263d424c886417f9b6ac1de0e2c1bb2e32b870fe671b11e8219760d1ae4ad0b;
 0x1545d2c32ddd1e1e37103adeeb116e09275624e964f6efba626787ea0b1089d;
 0x287183d246f54265d2283b5bad5c4dc4ff3e5765025efb643ed93015c1de8a71;
 0xbc24a36833b64ccaa323f7622d1b9bedcc204bf19b7f83be4c62b8771a2ecee;
 0x2ac5f667d34cfc3cc80a3788402696009dce7f61ad3483b54de3246cfbdbe164;
 0x269ec95973b00d3f96125e7daca220f7ebd6bcb6f08df2d39301ba36c6ea4fb;
 0x1bda71d6e900e79196f126cddb042592ce1b6c0c0b92cd7d86bbb8613c2ee0ef;
 0x2dd51fa2045a74f10e86b8301210f5acf7bcfb7f40b8d984ed23a00e3268219e;
 0x81f8b7c05030b310ec5adfe7f6ee0efc0c44b6facb8701fb1aa3852aaa29db2;
 0x12cd7c92b7efc7b50810ad410dee511e137f3c995e4b8080e98902c5c862452f;
 0x222b991677686866f2059fb4d66bd16b9f3fff5b65df7c782747dc0bc7dfefb9;
 0x171f3e3c2562f120982c7dd903d7b74665f3e8d085e398dfc4d7f73a837c0ae9;
 0x1b7b4bd3c56e17518b850f06f15341f6e610254b420dbd4873030c0f309c3c72;
 0x16c84ba6c4962352d3073fbefa9034f5d7d1035773e84ea47a70b5cf615c7147;
 0x1aa4d470abeaa2357079129d114bab1170944f929fc178216ad847d4430f3f27;
 0x3928b7c1f5234a3ef4caf7d19b815c0ce64a8e8906f2dcac43a5ad59c24f14c;
 0x254ec8b72f52e44c83734b672b33b630e8931d1522f5b25c69273784b997bb46;
 0x17084c1eb0e0ce6e4baf294ce40d5b24ca44b06ce6551b90d9f0ef7a5caf4339;
 0xc57ca90acee1624f9315266c48c653bd44400b9424e172953f044338a77b27e;
 0x5c7aa15848b5250efecf2eefb8b6758751f0e69ed1ece426fe6f85666b6a5a7;
 0x15ed7d3733abe5c01bc9491e0816d11aec10b0dbfaa86fb47279d7a1448e20b6;
 0x2fcca33e780707db84102f6a8f1e9a652874845769918754db5d936fbdbdc5d5;
 0x2d23b90c995b3b2956fbdb6448195ed441e717a7895dc1e433815b9a8077d315;
 0x138d37c5ccdfefe044ee28894bb422f29e9f3860154ac2ddefdc900bd5b1e2ee;
 0x801587f5637bdf253298bdb8c8fa556bba51f40c6c4713d73e31a0f0e72ce6f;
 0x23cf40715c260876a24e43b5c314c2a1cce16e1f412ebcb0916f2fea18e5893d;
 0x2733d53df2ccff16c87efc741114e39ebbaeff9f12ba0376b931b402629c525c;
 0x23e801d5f635e9af022f077b1a43f877db7241055d3c71b771ffa75cf6eee4ad;
 0xd094fe93f2bf4cd4af61d10a7bfe2b145692cb94337ecbff9c91aa88ffcf890;
 0x1aa4d470abeaa2357079129d114bab1170944f929fc178216ad847d4430f3f27;
 0x93b40efe6c068bfde4c0c198171a60e496e1d834c28765c9afda090405e4a56;
 0x2305950150a0b9c2cae71061661c181c1a6b3d5c87980b91ca959450e5cad30a;
 0x2107ba64be5e7797def29bd72b72b8bf0b1428062ee8902aaa58f0676ed03aed;
 0xed4b91b00cb5bfa594ed5cb57d703424a8f2dd9daf5f54f6fff74e5cb0198d9;
 0x2c7df01a6a701115c6d07756e4e0359ff5191b58300db58aa98cdf3c985252d1;
 0x5d54d23f2d684e0c609aaf56ce816de9d5871924ba47ea7025885674f2bd411;
 0x248f367c66a05a93adc27d36acc9ecdaceac63385cc5389d01a8d7bed9388525;
 0xef717b148e289194b332dec7ed2ac824317e40beb40d74ac7bfddb23d2b3cc9;
 0x1559abe59817b0a24492729506cadb87e76fb54f9214ac87346f8013c3032b3;
 0x3bd5cd6f008061a1c0b2da097013ed88d28caa10de0036904ca03a4bcfade75;
 0x2ba9dabbe0f9fdc8efff7060142fe244cda2d8feffe907ff23cc61c08b619da8;
 0x139f0add5443dfbe642f4f60a57ab2502a2faeae1b6f12e1e5e09b1909050fbd;
 0x8965484ff559d1e6864e3abadb5d8dd402ad180059473b76e9bf827b7542463;
 0x240c21fb9f6cf7f02e733c6609f9773970098adc7e21b041f7486156b4f78e3c;
 0x1aa4d470abeaa2357079129d114bab1170944f929fc178216ad847d4430f3f27;
 0x151923a505f13bee4d368e9f471b79b499975b00aabef8962a861e7c858f2999;
 0x20f6374e3f28e5665b4288c722551c898eb41fd64f2878b47ffc9188812c1e3c;
 0x1f26fe05c0ecf99843cc88c28bf5c7bb0f744153fcb405c37d4c9e5c60dff349;
 0x101a3d68872e2a2174e1e73cc53c3034532ccbfc8645ba9bd17744a0a9b7c7ab;
 0x1015cbc312d356c0ce96131b59584b0794aa717ea120efc994512c1dfdeb4226;
 0x1a7b53d07ebf6963fe87166c26f5c041019f2210f4eb48383c9abe98a35c3c77;
 0x8fd8a0e2a1df82e44da83d916b870960f621aa62a5336b9cd0bb124bd30ed8;
 0x2c43cee66409ac215740bc8b1f684999679b5e240301f8030ad3fef640e05c51;
 0x2c29dbf22349ffb1635b0182ea7d3ba41c0748fe4bf06b44a401cd15eb0ef330;
 0x1c13b6b5651a6d7f3929ab0946246f7366f5addc9d360bc5ddce3599638a090c;
 0x10171b916d8a14075abfe7c468b01d239c7043a8f97df103701e716bf5a73f29;
 0xc57c3d6c68c9d2da843ac9b37adcf1c46a3e0eac7c42fda4dfe0ce5c799ae5d;
 0x131e361e5a8725d01e57c3c77bfa27d1f3329533b82ef4b01a1ab3ddad098856;
 0xfd9e076ff4f5dc71afbb2743c74f080a43853793f8f6d80a93f3cdd39012fa8;
 0x1aa4d470abeaa2357079129d114bab1170944f929fc178216ad847d4430f3f27;
 0x1573d9a6d17cf8af947c125da5f9f64516344307d15be028600d7fbbf3a99080;
 0x2b6645695f714c85742f738822c21a26c8906c1bc19f98e0c34cd1eb463da48a;
 0x2fec770ae63e759af86d0742b049eb76e81d45f6807728e66930d00cb9e1a404;
 0x24ed0296e066560c8dcb239e7e7f39ddcb1898e5836543f8e98aeccb6f6144fc;
 0x1ace8484c0d96d050ade091dbcf0c6cd9bef86884bbec6f8ee56ca5ff46b9325;
 0x110a7faed51892c73e54c654f2fa35e47fd2647d90d6e5e5a8afef6dda4da73d;
 0x1491aa7f36d89ac133fa9992990af2913b71196cb0d0c3511c34aa52af7d4fe4;
 0x20cb0c1cd1adeefa16498b4673c4596b37f34fdfe83a41065c1fab66c42f34b5;
 0x1ba292539d1568ec6a3e2615134dbb5134c73e6b14deca4c1b1a993f9441c830;
 0x21bbe75d7c858ac948623d0de8c35924f28f466ef62a7a473d6a1b4f592a007d;
 0x1c96f9fb4c6bc33d46892d8826bd0c2f24d7dbbf38d9dbecf09e77f69bd701f2;
 0x12d33ecdd6482928f8aac0987910bbc372ba2f107d6e2a25fee34e82f10be2d5;
 0x2c1b610ce987acbfcda328fd40b56c209b6a944bf5781e3a77d1af9fa30baa6f;
 0x2d77c3f420a31d59dc0cf83c4518721eca03f4c8913fac371b553b966cfea46e;
 0x1aa4d470abeaa2357079129d114bab1170944f929fc178216ad847d4430f3f27;
 0x1e081cb9e91ff3eb0d111f2be59f4ec3febd9407a69ecb0778d7355ed3048ced;
 0x2e0888b957e0fcfecca2a1157dd74cb01a1d8545d15ca25f937c554195da3c9d;
 0x14434487e62089ed7659870346fb4acabe0f9f9ead2a19657a88cac39f773bbe;
 0x9299821c0f470cc59fb688b6e57522d7f57aff1e589dc15722869ede760a9e1;
 0x1f1ce2cba9b4c9aad6bcaf3bf03f690e267acf7e335863a54e6987634279b9d2;
 0x199fab9479b7b342dfb6dfcd8adcdb5ef8cd9cacd897ff15a3445379d86fd826;
 0x2bcff4e8008af4e04f02c3373fb37247aa873ce7b7caa35030fba7360479a6d6;
 0x3b2b37e288090ff11cd831c00b9fbedf6d82e97540c5607b59a1a5ab4e305c2;
 0xd3c39eb880cde63d9a4fec82a68313c912a25d4638a1f6177adf9d841d3d84;
 0x121da38157e113a3b3e4060acab7e1b40b36ce2e2a677e5bef5abebd6d4c94b1;
 0x1a5923736c007cdd31311b26d560615fadc7e01e86240033e1f2465e93df234a;
 0x90f568d806c5c4b1b5e61542ba122cf1f5d4aed3966c26508d824c3228e97a0;
 0x20d2b7987c326a68610ba3cecd0b4dc54c90390df012b7d96170d9693c29cd01;
 0x3020b14b8e1529cdd9289680c5ad441627632cab08b206759d28e76a0fbfe97;
 0x1aa4d470abeaa2357079129d114bab1170944f929fc178216ad847d4430f3f27;
 0x1aed16276f89ca766d4502fe21ccce046a63cd2f7d44a0aa8770771e2f012eee;
 0x29a61b71b5a33237899eca4e7f4e40d008c97a32bbeb0c7c09d8f24d6ca574c6;
 0x301dabbfd4bbca914d16943cbbfc3ebf006988c86b054d6b613f07ae1d092afc;
 0x2a3c6d1263e470cca3ae533107339b8dfed7700c910039b2b45b2bc67575f9f4;
 0x20ff2a6b8212735ccb82ff59798862854e3244244cb0566f5d3d59e341aa36d2;
 0x2e5dab75ff69d4a42e745287c98107ca9c3e423dc6f41096c039eb9724b8252;
 0x2f0f8690c7cd4737e913653ebd84f51d5f727bb6ec729c78c42972aa34d6e4cd;
 0x2be6c4a5efe483fe0a737eb77df7815a6599f091f021131ef37fd192305c4c53;
 0x2f18439786b79df3460f437b9fed74ffa5d899e2fc7774ac78afd1c75d7d98b;
 0x257eb2e8a7939be6bfc59d3fc6fba75da35049a36277c37513de03f6cae91538;
 0x12f8298c4a68070f15caaf500879659d02c3aa9b771106241917cb6638608133;
 0x22aa263182f19c8abe727e87a2291fdd6af7014f5ee5ac6c198a108dcf02f539;
 0x14cee2715a061bc708337507b88d099267ffd7d71962eba1bf7d2a117106b111;
 0xbea09b03b5e03d2565e9b4f7c43a91ed8137de6dfa41f70ec7b24d58eb7b1b4;
 0x1aa4d470abeaa2357079129d114bab1170944f929fc178216ad847d4430f3f27;
 0x1c01114013e2d2cc0f452ef7ef2b20226cc69e57b028464e95228e951d1cd855;
 0x25c7e0412d2072062684e96b656c4410dd5d77f644c64b1b1c84ad5e882cde60;
 0x1231e9e375c85c424c5fac79600e91904f849b8fb71c7ab4c37a7ae58c17d5e0;
 0x7a0a63d6b544338243ae9c846b542b213c67256036a719a44a451b8e621d846;
 0x2894d383becca5a477263e188d30dd81d7a41e56ef5c85c10d97a309b8daccfe;
 0x101c0e6bc868c92f99608d9839fb6263313c2ae6efe4d9efc642d577577066b3;
 0x1d2a84f7475ba65bf319106ab571e734611e0aa742df49e03c98814c215582f1;
 0x2d2913e61d8423d557920d0a4ce230a35e6f45df0092e1af389d420902295e2b;
 0x1eed01941020a3099668dfa81b2a57c1639ea6c61ffd2cfce89f696e78023df;
 0x25417306ef421d8d0a06515c241b62dba2f16368b56c0a09f876850c4d008621;
 0xbd0953d640552207b0df37f4ab00cfee2f4585286e008d53eb0124464fd5506;
 0x29beb31dd4af45a599dbda7e3014c88b4b0173b369e9674313022ec3c39d1875;
 0x25305ba821d4ecca68275fbdfe54f068a8e3b5435bcef6b7bc4a8da67f912917;
 0x1bfec9a5d8a1c5ed86c4e7fdbb6b96e302602d14f55488b1b98644e612208088;
 0x1aa4d470abeaa2357079129d114bab1170944f929fc178216ad847d4430f3f27;
 0x177f31701c5cd86c2135c582fa22d1fa1005ad148e125c80046a52f99a278a07;
 0x84b44037ca846dc363a64737ed25eae81e47527aad42c8b860d2f167fc86299;
 0x5db3b44bdbc42b1b4f26c99fe1a2cf645f28e6ce71253d92a406dd86a607bcf;
 0x1878ea943321eb7644a12615ea82860ffad4e28428239902a7f4fb2fd33464bf;
 0x124df4728f64270968bda5aef3424393b51e84bcc672db75983ccca6e6efb12d;
 0x23650e1dad9d21e3b5a1140b178f9d57e838a0938bdc88ad7c23256b09624fe3;
 0x201a52e3c2b36532a496eb42060c6150fd7dc3ac2db72df850c3a2e3f254654b;
 0x1f4978ca0763083af095848af1757750ea81d782d96385665df0b60121ede60;
 0xb98fdbb00789a5b9590ef157c1907a3e9bd3cb67887bba7a251b58cd45867bc;
 0xa497dff0328c9b639bfb1f441586b3db11c09773623bdbc12c40ce544d90504;
 0xeb016dd39c878c0b09b6c6e86c6527f9cbdf0992e71d929855f0d4525775008;
 0x18efdc04259cca1130aedc7167097d26eea98c38db92d699f7140d3148b782a1;
 0x126f37ef258caacf14662c6e1f6df9dc4fc6d1792a17be1af28439b6b7c98de2;
 0x288928203b020d9e6a57ee9e15ac29d64e2777ee080493070517c1a3338cbbf9;
 0x1aa4d470abeaa2357079129d114bab1170944f929fc178216ad847d4430f3f27;
 0x296ea4e3760ee3d1cbfabf9cb73a506d7cd78b9a28ea959e977d056cb07185dc;
 0x9a7542033713ab98cae7b350528046a818dc1bc4daf2c2119d38abb2e0877a3;
 0x3034706ae9245292d2aef241b738bd3b0b211757e4c2e0137e2c65c1e3c67d17;
 0x104ca211af2cb44baee1525e9c4887c1ca96f2d147148d6f8d7083ef975b4fd7;
 0x1b523f8867ec145c19ff50d4bdb5606c20ff01ab3bce0c0768fc28a4a3d595a6;
 0xd5edeaf84c1e75e0d4f670c09dfaa070db33640e744336c60b18d1b9b90496a;
 0x5124b407c8fb40067ff8163af388ac99b168031ecc22aa7423e756fef6c962c;
 0x8ca29ea50b36354afce9507079a06f06753a3e21362599c3b72d542050c49dc;
 0x4c3626ce2dbc4d64f6ab695c59f8f51f383a183e5033700af83f83c3189c1e9;
 0x14bf66fe46f1f1180c24f16aeb7dec3f4ad00c1b6e9988c5642b549609b37573;
 0x67b2bfe7bce2dfbfeb90eeedba00121ed2622c38d4044ea6de739dfd5f75d16;
 0x9287eb9fb34d9ff43ebf373466427795393823f8d70c88ea76dbd7ac989bd6d;
 0x16ff59f0d679ae8e74aeafccd0714d966c4fe1936aa0c7fbaf8828168850524b;
 0x2051d8ce6c5dcebc2d7ffe11130757bcf7cd14283103d3fde53e7f7a880a8519;
 0x1aa4d470abeaa2357079129d114bab1170944f929fc178216ad847d4430f3f27;
 0x1d360ee3116f0744286da43406049bd1b821cfa4c3e823752c00f0451c942254;
 0x1f6ccdc7743ba72305a0491a306aacf4e3b036b0f0602daa88feb8fd8cc62cac;
 0xf8507197161fa267d0c68cd381d423f3880ca56ebd0d7ecec6ae88fa68d7a2f;
 0x18b4a57860ae5f6b5ac2d4f8c924b2bb3872dca3db783bae02da366fc84b7a14;
 0xaf716e6f1286cfdfdd93f1417a064cd76b1a7e2347d61d9b1821eb8a4ddeebc;
 0x14f128af47080db5d122ae1a8bae27475c1933fe73cfe2a80d89380b2147915e;
 0x1f2f97cd81cfeaf9ab80320e688f2af45c9dfc4a74f7227c7205fb05697ce2f2;
 0x7a985fca61c3346a08e8fc31167636507b13885850b9cbc64798de9b76cc57a;
 0x280e7d98a95b9e3ebce1a4d8325d69f42ae8c7f7325a04bfdfcd531a70d0816b;
 0x1cce1cb692b8c6c02c7b6a2e20d1fc36f031bcc44ff6bff0c4abb5b1c743af5;
 0x2ac9fd902f4b6bc5f917228507b403859cb67077ec2beae84ca18677858e5686;
 0x1b69cbf6f6bcec50e71597c63a62a8253a63412612ce4e79b262753831b970e;
 0x981ecb674c4f9996a0f8f019d64520c9d933ad0c6375f17a643430355113cac;
 0x14faa8f8184c8aca46363826f864877722020035970dbf1090d4d3911db9a9eb;
 0x1aa4d470abeaa2357079129d114bab1170944f929fc178216ad847d4430f3f27;
 0x1a6906fda19b094b2bd4def4b25eaf4d799cf919d0e1483d9380180064116cf1;
 0x1ab6dc94517f1a235d1107902b6c034b5535cfbe94ca9096bf72330be04b179e;
 0x15669b5e4dcd66cf29b6c06a9308f8672f88d069e7e8eac7cb11808b82913038;
 0x132f02aebee7db7f69fdb68ca8fbd57f387664e6420fe20060941344fe5b63fc;
 0x46f52fecf6e77a95b31226d34954f28b9d0e2e8008de5b3d11c274d7e44fe1b;
 0x2b69ede24d4e37f1a8c1d58edf35d0a7f9a0716c3f709cfe5cfa6f069fc7dcd6;
 0xdc2cca8f0d3eff4d287722ba1c50b9062230d5b6c748aa4d7003385ec5424b2;
 0xd1b03d009a6a0295cdbc9f23ef32bc2933f30a8baf2360203ab064b69388339;
 0x1a1972438cf29f99b6802d9a1b24efc501739c6d7278a5f30b1667c2b7bfc5d6;
 0x203dd92f30579361e8ecfe9e084cb41cbaf7b93fad6d7f7abc9d0f73fba44075;
 0x9d6f86adffae5e4fa6d5dfa644e97a5b382a1c7e90514bea8ecd1da42773380;
 0x12d40572e1dbe47334a16c73922e7c4da9675a76d5fe099027ba003cee8f2b8e;
 0xc3c34e73158918b72653147d1e3d059b256c1657fe50430a778e63f6140550e;
 0x6973060f725dfae61acbcf3171f17ae957cd862e86f9fc6a47fc7ace24a8867;
 0x1aa4d470abeaa2357079129d114bab1170944f929fc178216ad847d4430f3f27;
 0x1b3a5512b18428893b48c2fe915756e7cc7aeaa8ca36c2eff6dab81568264de1;
 0x2ab9670c18ff8edc1c84c1ab36ca686990f07e16b567bf9642165edaa5a6346e;
 0x10660d5082b8fcb7f5f4eb051f926e99a5fedbd706fe191bb18c26d34be30763;
 0x1aecba1af9b70281bc2722c0d82a097305c208a383c68330a1633fe3b59c94a7;
 0xd23a06e79761902a6ef30749c86998c3d20bc827cfbe2f22bba0f484dcc04d7;
 0x282b6bffb062fbebaa4772f808780b00b77da1c52fa648bd74ae0ad49fc62d9f;
 0x27d48b15b151378a1e738977abc4ce2d8bcab816dc32797ca060ee009ac74444;
 0x2552efb9ecebe9e17a82574887359facf5cd61ab2ea64bcd60c50e053124376d;
 0x2e505630db4463f1d226d0e1fcc5be4ce4577e3911bd3262317a4fb32d7f8ea7;
 0x1d85ef93d9f0524c0d579400f62d8fa7f6235c8631bad07509d79e20db614ad7;
 0x24bac63bf16607fb32c48e942d0cbec8b7fb18554f342d6973a6fe3a309c6248;
 0x2403a33705855d9d4456779033eeb1938e9c9bcedc4f1b28f90c7fce3e4f39dc;
 0xe661908904f5e530a16e3c1184aacd43ecbbfaefe6b55899026b9fc9940db1b;
 0xee6336e66fcdb3a64d86b979baab0bd235291bdfb213ed532aefa0a72e5c3a8;
 0x1aa4d470abeaa2357079129d114bab1170944f929fc178216ad847d4430f3f27;
 0xbc63f41651e844c66007421b547d69d694573b1343b8583aadeb8f39b9c5af7;
 0xe5cdb3465f12743f71ef5f504e6a5927eb824266a82bd02df035efe08e921f0;
 0x1a0af69734aab2e4304d15e7a69b2e64956b4214c330d935647b2b127f6afd94;
 0x2144915f6e6f829e7179c5c005ffe6c9ee3a796e32de5577225696a77e7c381d;
 0x24b6274d2f945bda6058c3366b6d91e33740897c6e6f133304487b63bf0ba435;
 0x10efc44751f6ba491452b84a92594336c6ff4012098f9fe85420242cdf082baf;
 0x36ebc6a6fcb98eed5d0dcf87239433879d99acf6fbdc570510ed6c825055dea;
 0x17a1b2378fea94d0b1a96ea700505bb45c4318c9b911949a7107414f636a91cc;
 0x2e455a7518e54ec2e0fdcdd2821e488877c594f854131e6a9aee732db95666d6;
 0x1e7397644ed4f4cbb8e931b0db4904f29102b50a3ca839c43ac4c0c399c9a8ae;
 0xdf88ef1f1a67a39feb725316726c97b084981300a496619a38d3fefb6d362f;
 0x24e11fc9c4c7763829d801dd3a205359bb3792da2ef8b2741ab3b2c54acec8ad;
 0x4920b3e800f77d7cc99d8ee4d0141a45d27929e6e4a7d7bc4193ae25ae82033;
 0x20ab7b6abd43a88f684217ef931c13cc11908564c8603e01993b0e277ab29f8e;
 0x1aa4d470abeaa2357079129d114bab1170944f929fc178216ad847d4430f3f27;
 0x10f8a59f8273eacdb9154a734653e4ff7fce0da404f36b2fd001b3f077ba68b0;
 0x1652153e375ecd237c21acdc3f96d39088fd656dff8d66f867de878470fb391f;
 0x12a4756111ec068e3b9c4a1427b09f9a313e018d831f7ae5efe9f3f6c61c13f4;
 0x11243b19f113241477e4790f89b8ea79666796ebaa31cc2ce3700ff51ed3cbf0;
 0x93d6ab40a9a4a3bd74f097120654c82fecfbefd1067f73ba5aaf031b1c18c35;
 0x2f26911b23466c23bdffbb8aba815752b6d0bde3d12088becad0b08fd1dc4976;
 0x1a03dabe66a3037832d93a1c3c33574c5b28787fa643ec5149830f81ecc92bda;
 0x223b10c2c547e1a2ba41fb918bb5ab602a9ff21a19c37c157ffaebc95bac4870;
 0x1f271876f17d7ccebb222aa3da4cc09407aab4dfdd453f1ddcf248631eec1088;
 0x1adb58add70e22de5100c3f187057e930c9d122e128c3d1159874c304dcc1090;
 0x27b3f7ea1e34373d8183be5e462f0ec51d5d0c8bf049a2b48d30ca821b368afc;
 0x1e5ab69a6f006ef5ff38e49fc34b58d101ae90bacc8a638c353a636ac6e0cc6;
 0x14ebbd0ad1f23e2c7af18b8c43a41e86492189f38299783c3edf8e9fa8a2073f;
 0x939c8f74cf317552b74f7ad2ad5d0accf3e02ac3b9e67a91964539bcf09295c;
 0x1aa4d470abeaa2357079129d114bab1170944f929fc178216ad847d4430f3f27;
 0x1a55cdf6625cb645cd6090c3f525f6e297864a501041dcbcdb37b6f15af7e36a;
 0x27af5f96cbc32f217ffe217d4d478a315f2095286d6589ae3510e847a7741009;
 0x2210a4f1e6607e23b90a45345ccc56984bc8a6256c661f04292b78523bdcc7e8;
 0x21f9fb0fc7ea61cd6d0ff2d35785d6e7d15c7a9cda7cbd3e39c44166f4b175b4;
 0x1ee5d14567c941c70d07adfb6dd50467eb0668b7bdd1fce1879bdceeb059f94f;
 0x246ed97e4eadebe50c8a0afdebd6598030f27e87b89f0bf73090da4d95f12c63;
 0x16f44dd900dd9f274617e2d614733244838171bf0c89ac30256eeabd5c8ee945;
 0x1e45e42c3dcea63b20518075c16745af5e20536983b16f632d3c15c91b3d7d16;
 0x19fac5ce0028674ce8bb40058162e50f9f9f8b8905540fb7722930cbb20112a1;
 0x1190997dcdb0f5772ca3de8b876a4be62f8ee0b39d6c233c95848d073a8ed6a0;
 0x96c7db7d0085737934ded26317191715fa6c789de3df7e68f00e8af528530f3;
 0x1c21d771cd0338f0c0c00ff71e4af2c1d7db81922ced098fe6989afe7d1e4d19;
 0x2dd43d3c40b768f5625758dc35668efb3ba747347d5ffc980ec0b0cbab709c8b;
 0x1030059f96d75e04bc5f81b89fb7b5b0fff0361adf04c4f0cede89630d2f037a;
 0x1aa4d470abeaa2357079129d114bab1170944f929fc178216ad847d4430f3f27;
 0x1635019295b65b0190fdd718927dafe4c0c965772665800cfd539d559f0900a9;
 0x2c17c890b715b3bbec14cfc8f060ea84d7c12df2e51cc1e8a6e987f45c01674a;
 0xc8ffea42dd7b206033427a512377d3054fe4f8f86357aac58032fa2dfe7c7ed;
 0x12fa55dfd670309af2d98c8de77c302a5ee4ca3eb08b90f27230f05ff4287c7f;
 0x9009662a5a28a89ae9d6da9b3981767d2cced18677e42773fd4334297d6efa9;
 0x25caebb5501e77f1731a54be0e06f8c005176127f3556ddcbe24fb5804e08206;
 0x195e006734786e591acd92fd233f784503f3fdb5db18299592de56d770028a9;
 0x47885b986f4d10ab44463042a0bfc3adfa3bb9b553bac96ed40f616291bce26;
 0x930f3aa1c5410395f9b17a20a1753b721a0291fda6f32bee8aaa6ede298d720;
 0x24af63803104e8318c3e7a41cf8027ad36a631ea11d56552bedb5f00239f902a;
 0x27c63e725d17d9a44f47fc73f02d7bb2150ba0f6031f004e600ce008440aef5;
 0x157270a74e4ecc8bb6f976c5bdce70912cf64fe9c8816d62d42b0eacd9514dab;
 0x2190e7e822c0508c71e3ab7134fd89a40775be99a1b38c2767f6313835eef8b0;
 0x234f3cd5e0cf731da507c91ae18d28061082ae9aa580746149d1a48f6a8db2a6;
 0x1aa4d470abeaa2357079129d114bab1170944f929fc178216ad847d4430f3f27;
 0x1433fc6bf42a2541e40c104a24d5cb9d462fb71bf094bd998c85933874eee2f3;
 0x10a8445d83f3b7ec65128083a39f5c759b9f52bb8ce5c024be8e2d300e0cc652;
 0x1a1d8481d39a772911f9bcee025d79049764dceb488a8275f03a39870fb4c909;
 0x82dea281aa11435a7429463b3fadaa3bc680aaf49f02ee5c40d110f63731a47;
 0x13556947fd0714aed251e0fcf91cd0e8d0fef2dac3db4ff9f3b6c5365ee9ba2d;
 0x29508794226e7cb06bc170032d377edc210dabebd3a254ecd4df794d65f8cf47;
 0x3cf4fecc54b529b247e48048a963709b22630ce719ac8a9e9d1f8e74b73e702;
 0x16cc17305b3d333276a9cb43d51089ead04dc2f1e197fff0012d4c7c4db5829a;
 0xc36f031884453fce7824bd724f25e8fe71d3e640baedd9398a719d8f01c560a;
 0x50ff40107aafa9a2e30ea1a24b64129fe55da84a294ca8d0afcb9956ab09797;
 0x28b18039884a6d69dafea66b723072e0c55b1fdab6b247e801d6cdd52c7f81b9;
 0xbe18fb2749573c5b7b7534ef3cb0ad5651a801b3c6bb875fdf30cf8b155d8e6;
 0x2ed3ba243fb561e308a7da234e581898983172e58ce98d9a94aee5b6de925b5f;
 0x248eb1ee129d515abdd9f65a6fa7711b708374187faa61acbbb6d21b2e26dc7c;
 0x1aa4d470abeaa2357079129d114bab1170944f929fc178216ad847d4430f3f27;
 0x89fb8b0837e0b7c9598c3bb5efc40e62ff31e66ea4f5e51b9330a20f9d5e553;
 0x2c17324ec8d80ef220016641f18bb8ef3ad0d18e4de8dec2ca81215591dae7be;
 0x23c089339439d665507c0e956ab3208b27d643526045f4afcbe6364c44bf1093;
 0x32af6e9b670edec4744d9be16c2fb05dffd7742b035c5d5e34589f5cae382e4;
 0x13cb85e74878132b6a20784e3bf61df1818c4d6141651d1dad1efacd58774174;
 0x2db07c1bff2eeec8c5b9dbae586d6a9e7dff129340512ee92c27fe3acba78c1b;
 0x9829878aad19da18247b6ee680b5d3f8d94c0b046c24fa5641cc07813031830;
 0x1eb00d50e3b0c3ecda0b569d961583ba3ba49a3fdf62eab4137ab4ecd16515e7;
 0x1c92d7b2ab89c954d36a5da4466d4ce8fe3476cab10bc76716e6fa1469d3c881;
 0x29412e4f79957b5aa484f896baa95977808d2ea76cd61e0be6e705aa9c31c419;
 0xba6668da5d5bde10cdc9aeda5a050d864ee2f72f84ca600a303aa2f380cfef2;
 0xe3041c5fe0dabf954e6d9ab5519e5389cb3ed02301755f24be4c400844a019a;
 0x46f80bc5455aac3228986ff1910d988a8608cc8eea186ab821e5b8cb88a8a9d;
 0x886037252df484b3b2e909f79ef69e24c2b0f0a9b912d666cf624b888d7958e;
 0x1aa4d470abeaa2357079129d114bab1170944f929fc178216ad847d4430f3f27;
 0x1e5db2e40041ad9d844fc08e4932c2a893f14e107a68534c2f70fed480beedbf;
 0x2d0e5945cf1ff11b864b86659e60292c1d76e29a88d35e2d25007c3aff574837;
 0x5eda1c9de06b29e901b43f4dbeef95746bade9533d07a22b08ee2cf948bf827;
 0x92156bc60919beb0e2c262d9b4ca9c888221b1236839a25a9457b4d475754a9;
 0x20346a64ef27480102685c39833600f03276e5e4094eba2077457246bb5b0920;
 0x10807d847901c2b7ae90b281bf84af1645abbcfb22fec7626418273a5c4061d8;
 0x1a02e561e4e6c7e5c33b9eed477176c2927cd2331f07d9eadd6ec80d2d77c3cf;
 0x1a20365486ae8bbffe437fff696c78cb344622ae0d25c8b6b1b1deb62fd03bb7;
 0x10f6bc198813943da2300d26f081cabc8dafd92a953077575e8e2ae4b5b60fb3;
 0x1d7d5aaea8bfae19980b3c529fab08e7187cd71a706f39115ad1cf0b7f57f556;
 0x1df1dd45ad494f1a872a88240c1a9ac86c18265890d36f5b57f84a6db388b35c;
 0x1c29d88c5a7e44b8511c878720f8edbd2ec09956d2a47125ad08cd791a72a786;
 0x2aee9b55a2f615b6fbffcce84c652a3f41351fcda1b830ff3beafb075d0472b4;
 0x1c9ca1baa0f3d242d39a3ab72580877c176e28a5c887c004279a59b0bcf1e66f;
 0x1aa4d470abeaa2357079129d114bab1170944f929fc178216ad847d4430f3f27;
 0x1e2b6b0bf7b3b4ed5126b8e8be6b6b070efc28d062f8914ba1b5fc68ed14ee06;
 0x2b00a882fcafe8d43e7da424366a73da0b7cab19478446f56da7a29bbf24abd5;
 0x441070dc965c1abb15cc4dcd6668cfa56f1122903318ebadbe52af6495c4e9e;
 0x1804350e3abaa426cf301eb0241d2f1726387efbf0df6f0c303cd0f983997d57;
 0x1eafed7d64d1deab8a1b3ef80d833b3aae94efc9f89286a55789c6b87d637b1f;
 0xc08b894acdae0abb3e1c1f653a150d96e0666a92e8a6f732d8b438e2ff7e631;
 0x2317408517ec88bd778bae7b26efbba777aa1b4460c3af71cac88aa1d4d2d7b;
 0x17dccbe73f5a7b036e83f6233c651c883a7957861eaefbb385468785b5592d3b;
 0xa9ad70b9945cdfa736dbac21e4b4426515ed32fdf0476217415ca4edcdec1f;
 0x12b21302572045aa13728b65b9e6da2dd6a00b49c9acf7418d03431b663ec316;
 0x2f73e6061be74d0dbe147fc3de191cf54657e3516a60a6da650dca53c6d4b8;
 0xb907e76289b21473c0e6491744411e520896aa614d955fa3b7e73d25d4f560e;
 0x23c6f78eb1f358e4f34d7a1d58577cd8af362c8d7a650c9c70b7cef28c8b77b0;
 0x1fe537054dffac7ef4fff98a49f253a17562d32eeb1903ff3172e8089f88a5c;
 0x1aa4d470abeaa2357079129d114bab1170944f929fc178216ad847d4430f3f27;
 0x22420a556a4009accb54c2b2266ba65776d5455a7944ece37405f2bbb849e352;
 0x1ad1968f9921575a75470f22eb1f2e2e3a6b973c58e22ff30c731f97064bd055;
 0x2d709e99d4fc4d59e9dab4baad17bbd75d2331e8a448c2595c835e96ece5930b;
 0xe1df1d829c920e063cdff32342f223e7b4851df78ffcba180df460988e8570a;
 0x23c4fbbe1b0de3e8b57a6137c331e3b284504bbb9f20fbe9dc2b304194ccb264;
 0x2ecbb2ad59823898278473d8a768598a22d2be7922c292a964c953080ad8a690;
 0x5dba95d04fff06245d0f4ced407a98571bb522547bfbba6c61731884c4d4e30;
 0x1b6b4761d189d1e2db04e13f1702f4a15315e1b4061312633fbd2f7d9c943b01;
 0x1ee6c5f07a003e7f7cf05ca63ec2c5cb85f0137f55e1e62c81c9b4a40d9bdc29;
 0x802b4548da3f90ea8a49c26cf583724835d8add489da81917c17ff7686c97e0;
 0x1a3089854e45defe9e953808e58f14cd0f0edb9d65302732ce5450c92ca79885;
 0x2133779fb03912c1f1db22b59f3a8e96d396173ce7c5abee98f05119b914b700;
 0x18dcc23fdade276e5c1ba4f96a47cba57ccbcd1102fb8d063723523e2d819b39;
 0x2a1b87020f3b905940f757cee7f0b459217ea429b77a9ed2404cf9655763e105;
 0x1aa4d470abeaa2357079129d114bab1170944f929fc178216ad847d4430f3f27;
 0x47bbdc4836a3ffd940aeb2c8608a75fb37d4e0ed1929fa893124a87046333f;
 0x2fe188cebef3df8090f27fd40d4e1f557b2a13aafcdbd36d53cdb99ec48fa13e;
 0x1eefea2f42ed57d18b8bf7591ddfd0f54a4e7434646e84e7c79a15d2f879aaac;
 0x1394c009ab5cc43d8ea089286a43d30c904d227e9a151549bbb7f4d0cf930aa2;
 0x2a0bb922c5a36f42819d00bec63da58d50b6dd46ff20d2a3b29c1c2e1e0ff837;
 0x270b2526008fda515788b4e38ea86c9c9dc4d650ffce9638f91b85453deded4d;
 0x2ba1e2d2ebe659e779301d63ecde988d55432d5bd7f8a4f76a03e20fa31fddd7;
 0xf56832b7f06a8a3a1c287b8497ae10dc05f216917450813f21ffda4c0effad0;
 0x1959a0963b974ace1dbef8ddb09c9ccff9ecbf4dfa10c2c174d42d523098cfdc;
 0x148da04f0aeb03cea78009e2d1192865f5b99d630681b71ce71f9ec05ed55b69;
 0x51a40af416f4fb5f9f0f51faee0ae6be210f9b93c4ead16f2c9a96a855c41ac;
 0x20973f1fab9890ed48723af234150d1ecca066629dc1d07031c6cab5e60a3efe;
 0x2a28a24ef1bdd75a7e501a4f035c1b431f4d7554df5facd800ecd3f024ec8152;
 0x1d2ee4e18fa1575fb3ff723b3f9ad35cb0997b436f85746c6857882068333148;
 0x1aa4d470abeaa2357079129d114bab1170944f929fc178216ad847d4430f3f27;
 0x2629999fb52514197199686aa4c0b0961d8aa48404241177e131bc2396fda732;
 0x1f99369d70a63bad0b76652ea69f388fa92ba1658836fa3aed366744ececdec0;
 0x4511f41649be85e455ce74338ebb425c895f88540244a554c9947bce88e6edc;
 0xb696f753615462876b9efe2ee1fed79c49becdcfa3a2d0d04a29051334ca110;
 0x214f09b5557846662636de4679dcd965611c3d78e8d50a2cb0589c3ec90c9924;
 0xbf5835b4c0bc4b13a3dbe0fbd68fabd6ea6749b70450547f0c2e3b658c01301;
 0xc48c640e88a6442ae5ac574221d7f10eb2e67ca30fb0bf169cde004f4ded504;
 0x1a5935756b57bfe02a3efedbae26e5a13200bee0994712005589ddfc1ab5b8c;
 0x386ba86a06566ae39b56cda79580aed0647b9636896a47a7e0e9aa9919d9c02;
 0xf00775e400bdc3e8685b204f07964e28163ecb3c63165d46c3f463e7baffe8;
 0x1a662d8ba07d915cf7504cdbc01ec2a676ed76347ddd4e07f370e249a7b8ea5c;
 0x1f06133283ad793171f99a4e8cbd2cfb465d9d6af9ffb4592d90293421750faa;
 0xf83059507c852c9750d5280c440af49da9bb328ee63d1daceefd0becb214fda;
 0x14d1ebfbc4c284f016134d6ab56daddb4e647593caa1324ecb302a77ef0b3bd1;
 0x1aa4d470abeaa2357079129d114bab1170944f929fc178216ad847d4430f3f27;
 0x5d4c4270c1e940348df545abf1e79bf647658d2e79eacd5dcbf97d68d05f3ec;
 0x275db6ddf370d2f7e21020dfc1106254f1c60fbb7de07efeec3d6722b04bc54e;
 0xd8e04364c5a23a60f46b4548459c7e7c002b73efa630bd165ab3b6a87f96489;
 0x17f1de99ff5b961493bef67f162e464c42481e448122fa5baecec8cae0b2192;
 0x23da50aaa25b76f0dad9f50db23d12f64a4819f547027b6bf52768799362e83d;
 0x6d4ab87edb0fa0ea037a4f5ea1583c4198129f067829169c06e7440f354499;
 0x18ff576eac16541cea173c61aeb541e0761cddbefb4a90f144818947d16013aa;
 0x1408d644973d6502f93fdd2f69a71093a9fe50d7f8061acb474a0a14ba304f44;
 0x29e8f556928e09634fd0b950e5bf4e90470d45e3c16b13864d598c555e57b1e6;
 0x1637adc0e2bc513402f3a8b5314017d7ae192c809c41f3348226dd50ed82542e;
 0x73235d0a9e96cf86e0976953988a3d9a260ceb59ba7633a40cbd7fede78a51a;
 0x6dd5e9ba875bfe6f6596ba3cf35ec2342bd03422f134ab99ab7dddb9778b830;
 0x18f491c6c3b12acd06a117563f067440ac753ec468a5df0c123498fbdf0f143d;
 0x2d09fae126d15952c2b91d311932c93cff8cda2b44ce74c5d1d6dd132f4cf0bc;
 0x1aa4d470abeaa2357079129d114bab1170944f929fc178216ad847d4430f3f27;
 0x1022b57f4ec134a8f7e574fb62093d415b876af638133d32d366a9b1adf620f0;
 0x14d51a25fd8d1dc5c7720bb793a275d83d812983965bc9b05d306794cf1dcdf3;
 0x2c6a7b31575f327009eed05f25f94a4f173a544a0d8fac673474177b3b9a1413;
 0x304d2a4701c43333827db71975d9c2c4e675056a2ea1e9b72a0eaf127b25efb0;
 0x11f7c6c76441a67bc5946687a40a28a6cdcbd0ade84c389115b744115c627fb0;
 0x9a1baacd8b557f09fc35e6434ecfe9182a04537171ee1d2bd603f5378206804;
 0x8926a69b2d5a4200ee36f786770139781eb60a7d272d31406b75104efcbd3a1;
 0x21135de3337256600fabf590e04c29c5e0875991a67d17eed5f5131c567bf4d8;
 0x14b248fabdbbed0fd66c899e0a801bbbef4e1afc9bd0abfef471884bfa160841;
 0x86e20d28f53332b9e09c5af815694ff83f10f379937f09105e98529fd4b4b01;
 0x1271f30b82cb798656e4465c44a9ff204325f5fd2d2e204f2b5673f78fefa4b7;
 0x2224a8d0963f1ac4f3e85695e2692e386a3c1492aa58127086e1385b9c2cde80;
 0xfae50434b1bf26f790caa16ef2562cad5d238130522db3a97c1893b0c81ffc3;
 0x3f2a142e4084164ecfa6300a4be6abefbe155f5ad84a684f761e75275926052;
 0x1aa4d470abeaa2357079129d114bab1170944f929fc178216ad847d4430f3f27;
 0x274d4d833700eebb5cf7c8f4fb81c174a108932a0e987d2889d9b93a95d187f4;
 0xe9bb8c9f9306791b77582a16c53947e12e0dfed0c2adc1ed2116dd451598821;
 0x26a098e91130e0d10603be0507dd975431923b338b6c0a3890fbb815af28f7b;
 0x26d653ce08eff8f162c1033b52ea7e67ba0f6a8036bc64d556a75817579698a0;
 0xa8ef549b90bbf3af6d9fb4db8656b7de9cf14212989422778c52691a0ca83f9;
 0xac39f4fce06a27f59b5f434e7ae2808da542d1cd5fd18bb4b90e4d15598676e;
 0x204aed1de3b314f39afe27b3b1bd589a851183aed39cb3004e67deca646266ba;
 0x158cb2e73c4aec4c054f1759e9f3293b62ae5fdf18f69be4f6ce1c65cc1c155c;
 0x13040aca2fbe7c001c14ad386c756ba465796b9ca677735d95861600b3ce6b53;
 0x2674a9a8dffb96d38295f6edd1c5c008e9320ac1e99672b9d05289ce45fc673a;
 0x57be234d78a86ab47e3691b67a63266519bb62985701f2072494d6343322a41;
 0x12bbfac6aed9fbbd81254753e8bf4bd4c562e4af62548e577ebc973f77d9af77;
 0x103b3e26bbc4767aeb96deacd771b5b694b4d57339e351c10507f61bf55d915;
 0x5f918dc84cbd6a0a32a65b188e3f1c6e3412b76230fc7f6e5b17612c1abe8b9;
 0x1aa4d470abeaa2357079129d114bab1170944f929fc178216ad847d4430f3f27;
 0x28e6b736e2337dc438ee643098ef22b69c869252509d605d6799ceacd28d6cf0;
 0x17326264714761dfead5cf52058e2559b4c57d30fa68b4162ab616d4ddf70448;
 0x26d0b9ad617c87b600e3b27cb797f4b0ded965500a6548b554d2445f49cb614;
 0x1a57505d738aff598d51ba2c25a4ed8b41f9479332bf95c4a289537dd22a366e;
 0xbc9463f62daa20f0f245379c9b36c48c26b8f2e7d393e29a3ab5e30539764fb;
 0xd2de2c5e221a927d1e90617e8be308d83a905bad2c5a5b29ffa06186bd62c96;
 0x2acfa6917c256caecdfc13513b404367163017f92c68314e4cee7c465c016bef;
 0x2300a55d94c34ecc47785790d4cebb3ee14f43f36ed26b8a69b1e7641f5703dd;
 0x1b18386cd94edcc53b5fc04a4f6463badb0b6f1908c53765eb2953449d3bc3db;
 0x168523fcd8de4e51f21ffaeb5194c5882350e2926f76d76b4908d3e0932b5ea;
 0x230836236981243f35eca0e25d7c73c4aad7b8b0375ebc53200c5a169d1ba5b8;
 0x1644931eb3e15ac27e176ba4a0efa23a8cd2cd0a495e0ff1459ba562c39f74a4;
 0xbdba47f648104678694d1dc3e485f87821387d63b40b643681f6920ee153dae;
 0x2934ee754f94b9cda4b4193c2da7abf8854286bd37ce1d10faff250466663729;
 0x1aa4d470abeaa2357079129d114bab1170944f929fc178216ad847d4430f3f27;
 0x15bca736827fe042d7bd64f77821bfb98ac7765effc787fda6427a9c1a3d7817;
 0x1702aabda38575c6034b350e4b88a2a6ef6a5bccaf04bc9f99321753dc12b1f9;
 0xfc69497af71268ae3b232540f8c9e5b16fe351e779646f5cf34bf7d41893078;
 0x13cf63991c3ea2c423f0069eef61d41d30b7a6d907a6cc3f723b241f676131ac;
 0x8212316344803402735c663b23ffd17261728f9fbd3d91b2f86e227a34cf2b9;
 0x1d76ef5ad83cca5d452debe5dd11a2a756924c26b546782299e7c9b9e7f6802c;
 0xff4763e1cbc755ebb7308094877f3ceb4cb0d393e00545eca169da0f82c6c1b;
 0x2ee17d2391f5e2ada6745b0a56c5b2915abb69437e28975e466d218efe4346f2;
 0xcdfcd1cf5fb6f404d7686731a9a326dcbab662736555ebe2964d81d7929c86;
 0xdfa35c85f23318fa0188cd8ccf7a174e89b324b94484e9f1efed3be25eee2ba;
 0x3020e7189aa0392850f96adb46c8476a9d62951093438a948858a8bdc3400b8b;
 0xf7d3dc3a1e33f5b68e2b84d9da05e7163b40e8724c46befb4030fa88768e536;
 0x2331b3e5f7f1277ecb6ef3e862f53047a7cfbfbcd001124d96437a7559e4d954;
 0x205334d2a003f29e2eba4a0f115f491e159af79d1871614252a23ec2c81ee321;
 0x1aa4d470abeaa2357079129d114bab1170944f929fc178216ad847d4430f3f27;
 0x5c88b264202385a48b939b006669c1866bcff2ce9be97fac1e2b7fb13ebd8ce;
 0x34938d22d020660d0a009ac6a5ed48bb0097cde47bbc0d8ce942fb31c464584;
 0x22162ccea7bdf2b786c635b0bc7132a04f76645b467df815cc521e977cc4f80a;
 0x27b9ec9c27c0f868a21ff55cf455c2b3a392dd5e57ce6870b90c217ed051b792;
 0x1d40a01732b59bc72804d5be3dba2fd2be8208fc2f1ffb9a44fbeb30895d6b78;
 0x25a3c16bb29635132684ee4964e4f7364c9edb73ff5d41c613347f90519098b2;
 0x2264db5f2b0206e0b97cebaef9ae578d534c98b8a20894d99ff4cc52dd4f35ea;
 0x8599a766249f3c836cab54623833af8da7345e0f976fc683d04699c33de0097;
 0x23a4e769c41d56c98af48d9d3eb4e65d5c3cb8f1dc50dcac0895f70176c65966;
 0x6863319f9840fe8a57bd754b58b7fed2466e86365ef6e678dbe7c495054551a;
 0x124f8b0efe11009c8a15c7830dac00743a617798bbabda3df6ac877625f3590d;
 0xc399275a8d3e83e832aab6df8b0849b9d1378376e90b8a24084074e85cc4e32;
 0x119e48a1b4a77a3a6f7c61ffb60b93c904286828355b63b3fa1f7efa5cba57cd;
 0x296e14fc6bee3bc2d9dbf89f2482f9891cf1f7df9ddbb7f98292f2bc7fd9a50b;
 0x1aa4d470abeaa2357079129d114bab1170944f929fc178216ad847d4430f3f27;
 0x26a69af895a05a3493040f735b754e16de06fa2c04c7d990fa5ff5747f83b413;
 0x9d38fd6121029734acccc26a34b6c0a9c5472d921ef1db0545ea0d2ee58dfc0;
 0x9258525c420c9158ae4a5b72f73cf036d988c7dd50700b1ed3796a595c5b6d9;
 0x240b4844e1a39d4cacdaa8cb96df170cc306bd32b46539a155a91d3dec72d330;
 0x2f7bfd78087629319d6485647f8267856ac5974200d94d165da35c13dd0f1c2b;
 0x10c3c9daa9b917522fb7c6bc6c18a2a70968ed139a349805a2242d8587b98160;
 0x42e830892fd09a016aa5998930a085f20871e7305b361d30690064e8680ad2f;
 0x1bd229a43207a8eb670f87a25910257b4d6e99ba62c30eaf92c41c887b92eeb0;
 0x179259aee9804902a592512d691fc31fe7369036e50df52f17899e9f310ad8cc;
 0xc94864bca0ef906ce0f56586a71ebf9cb21907610f55d0d597c910f1832f04a;
 0x1b8129aa9b54faded8b6e4594ac9c66268f761b4579bab75e4b84565ec6151f9;
 0x138fc45fe0e94d2f56d913eee6f4dc8362019d48b48bc11d566fb136a034e7fd;
 0x11ddf7e5f957f4348bd38cc6c2b7b21db6e688426842fe2790dee3e5c7970350;
 0x273e3a99347d8bb4443f8803f3144b1c79081762f0c89996e8ca6f41e2ce9eb;
 0x1aa4d470abeaa2357079129d114bab1170944f929fc178216ad847d4430f3f27;
 0x22e161940b597798709d5732b35b7a4a6b5738d60943450c0fcf0015f74a978d;
 0x2dc5270b47eb00ed0a19788755286e5153486071d8676de57bf1dcc0c95b8269;
 0x1a70ccda609d7bfdcd04227a1c7b3b5dc51ed832b3209ad05cfff7f94bd17d78;
 0x1acb2e3c8872171cf04e8e12bdf4aed98903f30427938ff2ce2ac2ca07e89b36;
 0x2adaf126a0f5fb02185e741d6944b194959178f84bfcf24c66caa70590d009f2;
 0x1d3244fd2a96a3c547cbcb56974d8a6286e71ade5e026544cfa6a239e32a4a14;
 0x1bd9988f3abf3347a931f562d4c26b2c6c7c3b157929f1d3529438687ddc9748;
 0x1ab2d592b1c45380283e92034c93e5a2e4afdd8082525f32728c8bef6293db03;
 0x25cb1ebe5ef8d7fe207cd159cf795ceda6553f6819f07ccfc9432344648093e5;
 0x30337709090c96eb2dd63569df081569d7cb09cbdf4a7c8c1a982b1a502bd31f;
 0x26767fe5b44f802d1ac590b4af55a4cd28f4a4565a03fa412dac54a2d953d6db;
 0x206a055992663ba140839fb48dde53a37509d75de3cffe05e543ad10e2a6a880;
 0x26f63a141092d97b431869438f6f4f2eafd3587d1759eb8dc51129be57d1c9e1;
 0x651190f970efd04e85ceb47f6bb491b2391e7e4c0229354bdd377435decdf02;
 0x1aa4d470abeaa2357079129d114bab1170944f929fc178216ad847d4430f3f27;
 0x16f9cc64f644433e68a60294430fa2cb5932712fbcf1d867628561f9057b714b;
 0x271bd08af5ec9271663f987e6d26c91b496975cdf5a2c6a7c5490b62c94041d6;
 0x29f3ffb8c6f14251d4e4e6479afc22e84b5c306798067eb2ca8530c01ef8f00;
 0x3011f9b6793cf8e594cffd490b2255eec2d7c84caf1fceb7276fc50d598c4631;
 0x1592b0301bc7a225be205d464faf0f2620c9879d06b7c97632c4996b255e8b1b;
 0x1a6cb5aa790973bd44ffb4ed2981c633750d9df8e6a122639648e0a305870d8b;
 0x3006f88fc72833b83c57897743bbdade1ab69f52bd8788b4406e17ec42bdae3f;
 0x2738654c515bfb4dd54512aed800e6c044bdb1d4f77cd438945579a03ffa1416;
 0xb321f51e6793cb25dcd5261f44260a3b7c9f9c44c5ff3ff64260a81d68eb977;
 0x1477b46d71b8684f6448203310aaf0f8948c1232cbba64f2e6372b26d3b96f59;
 0x2e11978278f26a764c2c61c66edb6f2964876d189ead6fdc76731044355d9086;
 0xab2312a0dfec5f56d70efde481c1222f08750d97f0f378e32416d8911347f32;
 0x293b455b67ef83fb98b09994d43c30ce29dfb9b499ca17c6774eec84412eae78;
 0x95b635c8679c2757a0299fba438ec55029818e3de0bb66721004d4fde342a5b;
 0x1aa4d470abeaa2357079129d114bab1170944f929fc178216ad847d4430f3f27;
 0x230291320aaf817c9bdaf62fadc83c8e9d55690dddc6ab42884102fbb8c1313b;
 0xebf9d983145fe427a9c98d8467c649a6b6fd0666f80cdc3edde2d6103a0bcb9;
 0x1b8a2f071acf45649491b58cf5576a862c45978ec121aba4cbc2b344f6adcca2;
 0x24287f43b82f4a84f3a2500829657e4890974e8321736b074241d6d4c6714cc4;
 0x2ce1f1627b642c8dfaad03fb46498d7f85eba85b778efaebb2bac14d3d4c2f0;
 0x11ee152a99a5a0de87751aab98180d05db1e64f3621498bef5a821d813fc7ae6;
 0xce62d91eb6161313ea7e48273122d6a1774f96e571277109302b68c53dadb0c;
 0x19824bcea6e4ccef8b23d501840bc4f3d40837dc60b4370146a4b68f6f889b91;
 0x2d1fc70e199a73668b4d0c37356f575269d258aae7199a266e63c88ab6eb4cef;
 0x321c2b5f8938df1e2cb30488e61521a99706c58f4237e4c61500bdfe47f5626;
 0xd7da06b4dec9fc5e1dff140172e0a84a9d147154745f2678a98aabc3f7989d;
 0x2fc41f67cd32d7ec4ee517c8b667c9a0ee2308f759ebd889f6ac043d8aa82f40;
 0x1fbd55b07a5725b3de1a9739d36114c9340a987b1e66ac212b12795249bd8102;
 0xae9b9d9f2101c972f848f0a2b7a8916a3a2987bcbdcfa1d300e0b781d2da062;
 0x1aa4d470abeaa2357079129d114bab1170944f929fc178216ad847d4430f3f27;
 0x19f45db7aec76df1b89fee8492cb760e8f6d298cac167d2aaba4702d30f3105e;
 0xeb3de3aa60a1e43df813790a7b02b5774bb93b654bb4f690bbbfd8b2e19c155;
 0xb506abb65dbe55553fa65bc43d1593be440b9c5227fdc84e142ee9365742ff8;
 0x1725cf40cdabdda24e0cb35d12315bb0bcf61a681ab3f3b6ca2cd06bb6f9d899;
 0x5b2e0df1727482fc6597c7ada0624819471e4c4f2dbeef58ced0c2e5a2844fb;
 0x2cb17d3d8a51790efcfaee971ca9155f0074b2e7622abb74d7b8c984feffa7f6;
 0x57cbe9626c16bb67d7f00009f1e7881b53643eabf6abf3f4bfadb6cf9678388;
 0x1d5a175df6dcdaa9375d954c5df8ba5bcfb394070967a231cdf753e2277257d;
 0x27453d445a464bedd2f943123064cf0d6675c8946f077957772f32e02a0fcf29;
 0xf2e2a7f140c38c5d932d2d6fb694914a060efe9e6bffe14fc1dcbb840bbb466;
 0x240f3c285bc1a1c717cc08ef209175ce1efbd0aaf894599c629114fb05024f77;
 0x2dc62be8336218eb9152ec653c5f2d0eda10ffb07a974bae8ee5a370aa497b55;
 0x1544549442e755807a39faa19a9e88cbe26fe1f5f4cd27fe68fa952806a6e72c;
 0x26d85311e5bb436e105c2eeccd768ee32acbcd275b22c135bceb61f6fcc99696;
 0x1aa4d470abeaa2357079129d114bab1170944f929fc178216ad847d4430f3f27;
 0x2d5c06ffb3d2b7cf9a0dc797193cfda855060c21de622962dc73de8bc7e5309a;
 0x1142dc3dd8bcfcffce00dc87253ce16475df11a72de8b35070e2a947e8df89bd;
 0x1ef9d5eb72934c51099404ef52f846564f9d5956a61fa690c1a474ec6dd4ad2f;
 0x1f875fbc8a4be018170a281b3f9c0dab5e91371ee3101e6eeece15ff9ba2a595;
 0xc7ea4455b4e9ea7958d0549f098eccc22e73f89b049f48558910bb97226db31;
 0x1781c95b5bb00bfc0c5280da9bbc2d16aeb1ddcaeb2c45644041366c0c57b8;
 0x7d46f4970f0af1bddb0baa2b45ea78c3e043c402b34fe44600919ebb3bc638e;
 0xb97d904e55808e8d3d847315766069b15e4eaf6e48533679e0d1dc00c70e6c4;
 0xa424cfc9ac1630f815e1867b2351bc8a7a0577a06a1b3eebf8e1c012883313a;
 0xab4976c40bbc9fe9106a7610e3e611f88e46839e484ed2160086e0e83c2e4c8;
 0x2bd44e217b9b1bd7c5c687ad7653730c6a9cbc73ab2e3eca6533ce3fb568a339;
 0xcce891fce830619bc5fefea2258df3f5653c3ca6050fd8efb3a653643334ed0;
 0x6cc269de739b7f75a505392122069f46ead236c9fe14dad4b89ed3be765ab46;
 0x2ce5dad6f8c706a1e48ebcd989cdb6e79161070d56b7f488b1ddaeb207d81805;
 0x1aa4d470abeaa2357079129d114bab1170944f929fc178216ad847d4430f3f27;
 0x2e77cf5ab513e1badea5c3c891925f9638bd14587f6e342c5a92452cb2216d10;
 0x1f0a2a3c8f119ff5dc221cd21cf450ccfd2a13a51992e227a040294c78d05bf7;
 0x8af508a7bea4393d740ddce0e6f0fb819f6e333f12273739f8216a7de28c19c;
 0xb7b0b5adc8e5b80228ddc5a3bd90a11a6a58fa87ab21faf6b5ee6b4786d3bad;
 0x29b2720d570c648e23e12c70c5d903c08897ec38e8f79e3dec9f892429df3f63;
 0x2b5d0114e15e9a524981ea2e38e06976616413a966172a365e702aeb81a3e8fc;
 0x2f04e33808a800ed501c43a1cc6aaff9ed0b2431f111836ecc36db9fcaf954d;
 0x75afde514ea96d4ddf31e02c2e3c59b857e12bbef9188703417fdff2b73f0ec;
 0x294c6a950fcf5693a8241c957ef737cb0e9a2ac3b7eb618a1bd1684db4353e99;
 0x2b5cfd45d895ab09fb03ee623cff22321018031c835f4bd9446d13995ebc2702;
 0xc9cc48c4d979b1d5267a49248134fedc8c18e6678c52f82e0ead42df94bc3d9;
 0x1ab81cab0d091253489ee59b36258e7f07ed92223988de2adf4f431790b7fe73;
 0x2586cbe245b6f98d39e52d3944cf6ecd7f6b02fe5125fc06677fa3adb5c4b3de;
 0x13b2352a38dbffaf3d06de3fa376edf5b2ee4e53a57be01229dbac8729a4fe01;
 0x1aa4d470abeaa2357079129d114bab1170944f929fc178216ad847d4430f3f27;
 0x3d877056291c4194282a1028b33bbda54c8c56539d25d3813f0992d563fb344;
 0x708818327e42247f3895bd0af9998a7f3ab275831a1b7ffa2c0266090f86b75;
 0x2f6df4925de2c8eedf7a0dd36de0e83bf0ba0e6649447d6fd2a8dac7d4b1b819;
 0x1333c9e0db6849dd2fc1e56de942f8e59e6ce70f9815f74ec75ee7a710ffcd77;
 0x12abc89e5164e8c1a20e40cba62920df78cd0d31c641aa3526b5387aa499d864;
 0xb976c6394d0a9ff18c3ce234a56cf8d9625c11d0fce863278457cb08e1c4983;
 0x268b0a4cff7f67119358196bcfb46348ca332e1af2efa758b59e922a135d7e61;
 0x254b8126f45243f14dd8211df41fe5516b35952d56c62678c148e73cdbad3718;
 0x270712f18b1518fafe093660f492cdbc2fb70ffab31d8a4d8a1934be68792369;
 0x2bfc3981a249aeaaec4ab9001727d32d4e6fe75598ee964fc85cf30d50df584b;
 0x16060a17e1b11f851ceab20464572b3d78d582ea050014843101485f65ab723d;
 0xe73217a106c402e4c6c166cd9ef1fd2a0b16ac1cb43646bc1c726f83177770;
 0x4b959ca07e7182ca08f2351a03545bd7ab676f740b02331637ea1434c8545ec;
 0xfc9cc95222f92715cf7476010225e14cc38f314071e50e0f3bc9ec674a8aacc].
