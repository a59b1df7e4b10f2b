(* The Poseidon constants of starky/src/poseidon_bls12381_constants.rs (c, m) and
   starky/src/poseidon_bls12381_constants_opt.rs (C, M, P, S) for the state width 2. *)
From Verif Require Import Base.
Open Scope Z_scope.

(* poseidon_bls12381_constants.rs:4-131 *)
Definition bls_c2 : list Z := [0x6267f5556c88257324c1c8b00d5871b2eba13cc39d72aa10dde6b69bc44c41c7;
 0x30347723511438a085118166c68bf0c4f4ab5c10a2c55adb5cf87cc9e030f60f;
 0x10db856965e40038eb6427303181e7b7439f1a051aa4630c26cf86d0a0451a4b;
 0x5a3d2dcd541e4faaae7eb143eec847a0f652b6dc1b92e3f39ec23c808b3a5d63;
 0x3b07f0ff7edcf93b1dd0487bc9fab1c6905f9ceee38dcce83efeb3a320398526;
 0x40c73c524b9fd0fab63128175befe07b5c63ccdde9ca10e1a37205c9607fdf8a;
 0x3a933861cf23752376d94dbb24b0f3c61630787928875c07672b68abfb9191e0;
 0x71cc165e208570b2d5ef81db84e3c5e714ea4edfb36fc7fb11ef65a64b2d9755;
 0x6c0dc9eb332b5d968bec8ad68fe24ce34087ea54093f153618434475bce402f8;
 0xaf5bafd335dae5c86967b11d5dcefb986a54c9d60d35eb06dc7a3fd779b3906;
 0x6e12847918f030f2626c150ab69e4be0f13d202ae1f8bc87ea74323e93372e3b;
 0x5565d40e21d059a26db241ca125d9316283eadf144b1318e604e253eeae1fe9a;
 0x608e01b42d3dca09fed9b54eadaaba3e4ce6aefe92b0dc954a0fa4683a9678f2;
 0x16bbe434b24f94e2c40ed1f4f9bd7d17e5be96c3aec15579b35fd80f0f80de9e;
 0xd1be811a8e73220cab01ce981d475522c3d7dd9e2716c3a2cf4ddd541546890;
 0x5997a3affb18f942868b86f8ee10a68966e90bac7bbd8c65ede7e6e5ef1f6320;
 0x4d92e86d270041061eec80278079fca771499dea5ccdc99682a953bb3a038b8e;
 0x616c8c5ce232b9314f694fc6a968446ea9daf7a4079ce1a75fcc950741d680bb;
 0x677e31e7846d9131bdc350eaf11a8ff918dd258ddd800444424afab34dfdfe3d;
 0x4e7d7f85aefc110b233525ee3e53851aee7d3241e2a132585e0e25005eee0b0e;
 0x6a8b4539488b7dddc48c3a226dbda313f906e106f844196d55013d321244f13;
 0x5091517b6a85783108999f8e6bda3c793bef3f2e9589641d260bdfde8bdef00d;
 0xd2703e5b30f54d7f414e901802d54f8c14cd6355415df6e0f063d16bef9c43a;
 0x56f69096811148eb38eec143d32565c077b3d1a4a4351f2b458f43b1659d4495;
 0x622d94d38d1ded428afd062008c5709b43a678f6ba518ec56383e8ffba473504;
 0x2730c607bba7333723a4a44577819b7db82a24574f6d13eee4c856c1ca3de9c7;
 0x1ac5f59256c5004dc1043c53b23800a3fbab53eb1a83f551056f227b514b9f6;
 0x790b92523c973f1c95b94937afbb5796d89481e7a56328b44bab5ba81ae42f3;
 0x1d63b59d97bc269d13964fb3e8771d0acc749bc83eb2f0372484e266142bb8c0;
 0x1a52d04e5f14a3a05f7a01262df9e68c77fdf7e2bfb56c8b252d2140efdf0914;
 0x5aa9b3b808812b284857e8622843a8717fa5cb49b217017f31d79e8d0f963fc0;
 0x6a3d18fdbeb1d77ec1304539b00e6188786dbbc4435269b4c6281367f42656e3;
 0x4743e860df269a85dd76fb99dbe9d840eb669dc859754b3f74805e57ba288b00;
 0x6c32cac3946825f80a434c5ab397fc1a1c6a9bdfaab53175d4cf3d29ddb6cbc6;
 0x333b0eea5da7ed1e3959d16280a361aa77dd24ecbfb28e1b2583ac4e9894305c;
 0x3b503fc333b795ccc0c5bb3ae26b077dc3742cb745ec8821648c5ce7ebd9df18;
 0x4fa5853188d9f728a17532d94bee6fb28fee510380a5d50927c6c5b1ce283444;
 0x5d2ed8a6603a905bac490ebfb9e6c18f0bc9da1bbc2173291b18de6b6186118f;
 0x2d830a53584c5556264852f075c78f7f9eb068016ae88af9cda933d6ae52eca7;
 0x250f4d6780ad29ae60e55f135b9ac80ccc7c81e3add37db276c26f1a2b1b86e;
 0x6e3e9595f59220599e23e830728d4a0c4d62515ec1ed10b72446cf4df5b4c308;
 0x2cd3314555d6faf23ee90cdb884f1c4697ebe98e3a450a624c4d896233b93cd5;
 0x584a408d0f370543b8413fee70a060a394e561f504d8679f7bece4bf222e4108;
 0x499cd53437b9fcbf7479c00fcc21295759074ce9bd1bb1fbd3460237aef4759e;
 0x56a9b567bd0646effd0608d74d537991136098d9a06af6cb3ff8f010efb57578;
 0x6a5fae2b00d968b931441b374e27ba4d03b306bd602d48731677169e75a67e8c;
 0x2e1cc28e390e64aa1d60edb99c0aeda7c8c32bdb01ba11abbad5026b46eccb27;
 0x2d4820000675df7c276beac408fe2e851e734a7008ae09bbcb3c96c70024f71b;
 0xc2fe101a2b52b538b902c6b2dc992cb266f7636e05b0c068385b5fa19e97142;
 0x209b790b78c0e7927c6a178ef2f00b8687fc7bd4f21a9e02578551535002bc95;
 0x2dd0926cf56bbaaec6491513d08a9983f94a910852a7b4ea4bd4222b93e14c10;
 0x4316b39dd7d65b1bb575198104d409b169236a7ade371f7ab176fcbae75a5f0d;
 0x540276d61041b91f6ea3068ec260a9338b6e3da15d934e648c24f35aee04e535;
 0x37af612900b839977b146324c84772c58a4ccc0f6494cc054571827e74bfd2d3;
 0x2af00c93d59ed14c9911e5cb3781d772371e83228e4267bbce11d065c1955338;
 0x62b48779b0cf7ff2c10fd9b91a6ff7b7a99f935e961a5a94aa38f9d4f71c8b4c;
 0x540bf5bbe01f28563bcbe11a2ce346d8231a2cdd0fe07641f9fa89e5c21978e3;
 0x232b6c847a6d23912cb10ecbe50b53491f67f71e9b87a4a30446f2218017874b;
 0xab34adbe77b8f1e57a370e4fd626071eea74b3f0b66644a629efaa0e96456c0;
 0x1a83e43ef118c90046b1bdbeab8dd5cdcab632807c2cd0dc9147cbc5b7084be8;
 0x1ec6fa41b41b672d9005468720918130b642567462a3d557a595d4dc6c56f2f9;
 0x1f81a153199a751a111b8f5212cfc5bf82aacf0287d03e1864f8e5713fe4a17;
 0x2617307587a675f4ecd73a54a7b206162d751cabf3d9fd007bcca4de2c6f0649;
 0x1647be94c515178c7974a245624b642bb1ae6e2d4e1682087e362d7f98bc953f;
 0x6e690b956e00b9e339dec49d675586f661f9b081ee3fa7696d73977658aa6fea;
 0x660b85bc22de06d476c47bf084ad436f59874f1d630c0f5c91fbef51d5e738c5;
 0x32bf3d451b69dde075fc370eaa8c1b77b5c0bc2aab1c7b46da7ef9d1840b0419;
 0x73924b40beaa9c1ce4074c2154d1af4d658c09395a568b99b2fbcc3b5685e810;
 0x17cbb3ee0adcb9d977e96e9152b36042925244fdd0aa184c7a89a58a2dc40097;
 0x29d76a821e3220775c552f6b5977ab94956e52b8dac36ef88ace050d553766a3;
 0x62b1a6c06ab26881a1fe57eceac56b5aec0b96da7211557f4e27ec24296d7db6;
 0xdfc474151e5c605a693a51ae8227cc0a99fdc4524fc2810c6eda9035d04334d;
 0x3e287088506bb38d2ed465cdab37a7b2eedafb47557446a9aec9d366a91b1d98;
 0x2641d2919d0bed24673c9effc24578798c56f3cd39940030aff2c913cf58974a;
 0x286c1f841a05bb667c84d93ba9359da901a545ecb1c6a37403c5e74d0a663cf9;
 0x68159ff06a0aff28d53ecaae5654db9f3017f564378fccb68af2a47f10788d17;
 0x432ff6c037e9ce6e61172862cc076d925d00f4414fa4f4d8722c4b1460c2f04b;
 0x5e1a35f47c87b33cd37544c51d7dda1d7e262af52b11133df163d2c94e9f0674;
 0xb8d4686183872494b4416fc82317a4deae10e7c312aeb8a44697b49b1025df5;
 0x6291c6d458499cffd8915196bde5fdcdb7eb5ef6b1e6d15aab7d8e95cda2c564;
 0xe2f4df2de6504553f057c1046bb04decf779baff7457cce028c4f55d4f4f0ed;
 0x1694268ccf0cf400d1c77259d9766437e5a35810b854022829ead0b3e70aeba4;
 0x3c96c51a30dc76af38c9c08c36ee90b626c28910a0994e0854b5375e7f46698b;
 0x5a99402864789e9d2bd2930a70a54adb66865923b4a17ef36a107020e44a73dc;
 0x5a22c7703f1ab4a55031fc34aab0732018e931ba48c8c38c65bfaf5e610ab7af;
 0x686fea106123473955c3e9365afa2238a5e35390360884ed7555a8c5f8d66a20;
 0x6a68607546ff48f9d154b924ccf0fd85b608ad351e4bcffd6097d4d175ea53bc;
 0x21077e81fe5a0bde7f6f2631f93cb33d07d1928befec6a434bc0616ef5b3dddb;
 0x11aeb10c549bc49d3ea21f84ea42ba3374a80c7504186d3c9c9476e7a380fb90;
 0x4dfbc6f6a54a316d331770308f53534a01f4b9a50210cb081fdee076e3fd6871;
 0xe9ba2efbd177a7c3e3ba0716b5de50a24937f94bd97491941e064704a024904;
 0x1dda541f2f744aaee3c50c2d9abc405d8fbd01e3e5c22f4192d893f45788e9d6;
 0x2ec1165caf7fd1589fbd8cf29049439a0c266d9c002c5d77b656a2e28db097b3;
 0x1f8cc6e561bde673e0bbbfb882419c31575e4b7ae66cde549443f95dc23566ec;
 0x57d97d4b02423d7738690fbea9e0b7ba8eb1ad651986f869ff96a932fedbe6d3;
 0x1205704bf8e95ba26bca37a88295daeba494546ea8efe7189efb000e0bcfbdd0;
 0x16cdeebdb6f8b37fbbd4ef80645d2473d21df81eee935ec540836f06eb49d38;
 0x19b8a2f4a6403c98add6f220ff4938fe7b5ca43c78095f14184923bdfa0cae33;
 0x19358aab5822facc694ee0a27a4ec9fb6bf931d5efb8ce59c25d67bb017e26d5;
 0xc7a80ba8f7372a2bee14572b6967720c9853f811188cd44fe24e764a2e7affe;
 0x3894fe113139129d6f42058e3f871ac109b87f7fcffc317321cc1e428f9b48c4;
 0x1aefc0785946d65ef0e62be601da8cad8e94f5e3f96a177c235740d5fb406ab9;
 0xaf1c4fc0b49030fe545ef543ac1b16640288c36554ee106e7d1e06a4e1626b3;
 0x5848a8b1f2645e1c36b603a083689b50b760744f96bdf07a2df821e584023884;
 0x1318aac0f0ef72e5e0233ca168ea6c21a4e162e00d3ba70d79087df4660154f4;
 0x4179cc529ed5ddd4aa1acf77e50d12bb9a754df8bfcb0ff6c6e1073e8cbfe8ea;
 0x5983d5e4d5d48c2c80a4dd83083db023217247ece5e0514e49b90cd73e3d05;
 0x5c198603562a2e473d5486f461f4fc776051ab0bfc00526df55541b87e47c11b;
 0x39c93d11962620d7c5396532137173d6746356c6821ff03734d59af52a6ad067;
 0x2475bc5acc012b8083fcc7d2ccb15127a2bc7bec09dbce1319e5f680bed75fa7;
 0x66729d8d26c113573bcb9dcd84bdbca5fb0aede246e1f5659762ce88a38abc7a;
 0xbb442eba5baf8e728df8eb9c2cb17ed8ac2909427f0a608ddbede534265c995;
 0x4a432bd0cf7b12c3f31ff6ef7033982cfb702a89df14ad1457e9e108e0093e0f;
 0x3d120149595e0c7fa884fe33f287ea54841a94be027702ea9881ad9227204ecd;
 0x35e47349a427ba8b1df4bf4f5f1da532f25c44be406a90def22e870301d051e0;
 0x19caf5fbbc0a1424525971b573841109f36dc3e07eb1df7fd69d4e1fd34abcec;
 0x4d94360247806752a4c1e622c2964069456601b666c900aa8686ae74c00d33be;
 0x515cce538dcf5280c18d4d2973a2fd4eda2304d6f0bb0b45d01bf9a2b1fcae38;
 0x5d157e3dbf20d63c3e0783a96c763b96f28ad0548a44fabba29463d5fb759390;
 0x50c6439188ea7d8153949b6f5f64c10df7bf884d31b9680323781406fc84d4c8;
 0x6ab7adf0f997badc0b95360e3d992b0d5dafe9fce2c807f5de11ea819123651;
 0x6212d6f6db15bcc7f3b1637efbfa8d08c5faebeab89d265bb7a0585b96306900;
 0x5f674e12cce1d53f2d01b06ea1874335f8c7634443b29b300ff011a4e4822783;
 0x1865aba8ec3d89aca45cc1da7d8ca5e2b31a8a44178a0d6e665fbe83d63cdd2;
 0x221d9df33836d262a34e9566471db96efbe80c8e0602d8ea7af1c2560afc4ed9;
 0xf12e59c448a18bae09585d74c637be4ef24ec3d5ba000964cf76c6032d159af;
 0x10376fa0adb3a50540dfd9aa95fa8b5c120f4e6843590ed156b5fcb93ecb7a27;
 0x31597a49ea890a50ed8381799fa51e27e540902ada5f8d8a7529a980458eac8].
(* poseidon_bls12381_constants.rs:10894-10899 *)
Definition bls_m2 : list (list Z) := [[0x1e6d0cd936714f2124fc4c78321266174fe2855e689c6511a36ecadc3cccc268;
 0x1240406fed29618b5515b2170437e1cbe9dbf814d630e4c71109f74a157a9bcd];
 [0x70720066b0150aa415f3fff26ea0b231e657f63112a36a97f0833f3c18dfa4c5;
 0x6b07f55f01bb144fece2d7068241cef3eda1aba1730dab73367f3d06e994a23e]].
(* poseidon_bls12381_constants_opt.rs:10-80 *)
Definition bls_C2 : list Z := [0x525dd14d753a142ba9f083211a71385591c3aa1c56b69c6a35ffe039e9c9b72e;
 0x172d5466ddbb9d7bc60989ba65c6fe86e2da5091f2a9a25846b6516122f2b31d;
 0x610f0083a0e6825441e9d7999395275d97a444b1b8accdf3ea51e11dc3fbff74;
 0x272ccf70965866770cc86bdeac3730d9bb2566fcbda6f164f1bdde02b1a6f753;
 0x39086810f8e09381b1837b5eb40ddfb1cbbbd881b7361c587335d7a14765d9fe;
 0x99dc2fc30fe7d35d76e99c9d8b842997f7e1de2a47ce1864773bca95c0a8ee;
 0x5471b001ed628a444c0566c529b86cf91410adba37833e4b6ff7b993fdbecf3b;
 0x29ebbf7786ebde38391a7f3dc826f7b3a4459bd459805063b4321556d02a2740;
 0x64c56ff7c4cf00ed15490e2952fb695da3b0733bac824a1ad20b29af6efc63d;
 0x4c0460a3dc98687127d979f543ad412e49170606150087103c74754f7d31e1c5;
 0x3c2b2d8caf231b806ab1af12916063294c723231aa87501718d2eb57d1fe2574;
 0x6ff36c1fe3c6ec4758cd93c1ee2f959e37cd62f52be5ee02686b91c7a8e820f;
 0x253eab79f461f5666a8cd32a5480f76880a2effb46fb9bec2c0ad6f39b27c869;
 0x4e1656f8a943bf0752caeb768fa6177c6dc304b474ff98dd9883a237250d8071;
 0x431158cc8ec1cde162a0a547b8df9f41d95f95c188b18674b1c8f1fd003bfa20;
 0x50e50303aff402d0b20c68dd191a8c19ca9acf7537382b950c69676c6f942082;
 0x6dbeb1c12f503d5248c47f653664220d95e09c2aaf8969b48fa19239c46ceffa;
 0x4065029f792c20433c20a04186e84090a6b46741dc9892af7496fb97ff0d61a6;
 0x4b431104cba4aea98d3de769150327c8c34f37275e513b1fbb12f9b3cba5b594;
 0x44bad7e279cb2f959383e6da16e6666256ca47b0ffa4674291f51c1c52a4eb48;
 0x66d2715be3082dcf44ed349bc17fe3f767bd5fb84421ff256ace48a5fa1041e2;
 0x1d25f216627a1e0cc1bef9597dbc7a404389f09d4d1b7fc87d6f214693072df5;
 0x2affeb586127ee8cdbfbac7c7e46a18251ae4453228d9cfcebc1af9804d1c24a;
 0x383a3f63c75718d24609a239059ccf0201d1a8fae20ce9be4b71b6ca70da5138;
 0x25209b049ab7f2de553e499a89dc0050e46c0c44c2c21bb92eb8cfae96b7382e;
 0xc2dd10544ba66ea6e756dbd9b6a821f5d35d9c86b368816eaf78e13e4c6bb5f;
 0x271b4afde46dd8ebc17d74562df5f817a09420f74601a577665445820f042e02;
 0x5009d6b64309ef1dce9c14a86a05d464b1f48fbfa9bbc6a9681b3872e62d0954;
 0x6c6feb565217329f8e9c1c56d228aa52715cb3f7a0353391b732d6c4a4508ebe;
 0x3634bf35af36d9880409e283e1045bb9b0c598e272834ca3cbc9f2425fdf76a6;
 0x3df32fd247c30d6b37c6f302e9789dedeb6f7f7364619003a41cd91b8435c75f;
 0x38626b965c2b976889cfaecd791044c88353b78702c24099976a9361a371b7d7;
 0x210038acfbfe394d2defaa3460ebbf51e1aebf43e5692e3a71b182210fb8224c;
 0x1b65bcfcf808fa3ee2f2c4c55f789d3f8e1481bc5e49c0a9947d81b069f11;
 0x71d631fbb1a694d577e7c36ef21ace3731c9952c37b64332b06afbc557515341;
 0x25d898c493605a777ac4dd2b50f236f132b0978d5201fd3b1cf7e68dfd7f7531;
 0x1e2775e151e483d1ba12612086e767ab23044d8683479908921dcd962331be26;
 0x7256a36f6b05d3fa3fe576fa17dd6ca0ff6fdc2c9a370e3090ee766eae2764d7;
 0x4a009bb2337448d90f3de1ba0738c586ae23fad5bcc580ea9e5bcb7f9c95fd7b;
 0xa46782eac47a832a9872cebd7d43426bedc63988144ac60527c6f98d087e1bf;
 0x22a75cf103f902cfdf8224b04d52696885a48ca2b9db787ca2c973a31a7d34f;
 0x1fe9fb47fef7ed44fe6730d3a55395bf1fd6d1e3c140d6993acc94b33f3b033d;
 0x346a0aecfee9a72f326c678394e4349d4d5b38782fa929f32a357d96609159aa;
 0x374b91f713f88c7e0e8cfb74afff51c5d912046cbad3e6e0305d723104072ec9;
 0x6720c655b5683ba5c25a892f480cbac30d2066d0618a82adc0f614bdb299184f;
 0xd03803d1df09dffccae7df56df25535ce940a27b4fbd2a5c0016a13021dbd1c;
 0x4f46db6d212d5735965b71458242ac5672aa57ee8d10b4426cdbffd20208c804;
 0x48105a6cf01f957cb6e44ee346f4e8c4bad473459eff3b61f0a33cbf7911f9e8;
 0x646a15ec04901ab62aab11a0b07b6713feb8ce10d050d507258fc24a7959e59c;
 0x63f96ee4e7d056590a0435e937e1f0d98edf8958536e1d9d349553dfecd7ff9;
 0x2eabed9975a6b47f04639195d3bb37bbb5aa85997c086a326987b3d394a6b744;
 0x611e0959c03e6f6f7f97021ae48b253809833f83ee814e5ee29cceea11852aa;
 0xcdb1ed9c462c9dc124d73d80de18ab84a3da976bac37c7c7ae7c9ee078df1d2;
 0x20d57a010802923c38d5a7b98c27087407ca716ba1c0558ed5c3bb8c29cd0114;
 0x5391e913b53f692af5157e114c4926661d3023a4ff955564c631ff32297ce292;
 0x17023d70d61b4bccd13516eadb40e58273a971ca8063fb54a7e5faa2483cd3a3;
 0x14ea6424447107d3fa90cc8927ccfa4749ea5fb548a5f9e7d9c84d9a5706bbd4;
 0x494120c4f892531b3ed3be0ea2ca582751a1fab334af892d1423cc0aae3a1a9f;
 0x6369dae72ef30c5208dbbd4475520394042e02c430f83d774b1f95b4c3e3a605;
 0x1c553bbbee6f768fe84a814552ad8b659a340f325908095466f330140ed42055;
 0x360b91e93f50f84c3ca5e4717b6e8f862ea2a49061dafbd643a3c2b5e6190a17;
 0x426b304163fc636404164d91779b324c07ec1a06e168bb5a6c85fb5f91837b41;
 0x6ead0253952476b14953bdb89fea1fbed3bee7d1671f5590edeec9a3881099a5;
 0x59a2f9cff281caef7deef6cbec333caa676e1cc7db5e1c92a2c66612f37f21c9;
 0x12386ff1dac1ba9ecc026df2723ebcdd4cddd2d9011e9845b3ccf31886a06608;
 0x5c59aaec8819e02b09a5d6ec62db2d548627965bbd3e71d5de68a1be52373ca1;
 0x48dc99921e45543506db52e410941bc87046a64021bc94450c8e0d8b9f641821;
 0x4e7100d757e73d72524e20781c0bd6ad7003c9ce561ac7303b4677e1d69633dc;
 0x5ad9ffcfc747630e58c832cae590873a588f49977771307eab1fa8f67077383f;
 0x4161b98df5f2444d39098b5ddab000cdf71e88808afbbdfb6a09d8b6ceb763f5;
 0x4f6b6f731420fba0b9276850d0627b62aa399d2decce28e79837734a52f0d100].
(* poseidon_bls12381_constants_opt.rs:2169-2174 *)
Definition bls_M2 : list (list Z) := [[0x39f6d3a994cebea4199cec0404d0ec02a9ded2017fff2dff7fffffff80000001;
 0x4d491a377113a8daccd13ab0066be558e27e6d5755543d54aaaaaaaa00000001];
 [0x4d491a377113a8daccd13ab0066be558e27e6d5755543d54aaaaaaaa00000001;
 0x56f23d7e5f361df6266b620607396203fece3b023ffec4ff3fffffff40000001]].
(* poseidon_bls12381_constants_opt.rs:4291-4296 *)
Definition bls_P2 : list (list Z) := [[0x39f6d3a994cebea4199cec0404d0ec02a9ded2017fff2dff7fffffff80000001;
 0x5e3117f29436e2a055b81e97bfea46f44e13773d6c56a384aa946f9bc54ce5b3];
 [0x4d491a377113a8daccd13ab0066be558e27e6d5755543d54aaaaaaaa00000001;
 0x29a9682124c1caa6337ba0efcd873f35e59f306d514163a3bfef53b513f9ac46]].
(* poseidon_bls12381_constants_opt.rs:6412-6576 *)
Definition bls_S2 : list Z := [0x39f6d3a994cebea4199cec0404d0ec02a9ded2017fff2dff7fffffff80000001;
 0x4d491a377113a8daccd13ab0066be558e27e82acaaa992a9ffffffff55555556;
 0x1cfb69d0d40312a8bd32f246e2c393c13d14f0ecb15f7a15aa51be72153396c9;
 0x39f6d3a994cebea4199cec0404d0ec02a9ded2017fff2dff7fffffff80000001;
 0x4d491a377113a8daccd13ab0066be558e27e72acaaa992a9ffffffff55555556;
 0x73eda743500c4aa2f4cbc91b8b0e4f04f453c3b2c57de856a946f9c854ce5b24;
 0x39f6d3a994cebea4199cec0404d0ec02a9ded2017fff2dff7fffffff80000001;
 0x4d491a377113a8daccd13ab0066be558e27e6eacaaa992a9ffffffff55555556;
 0x73eda713c358b2b339819c560f53b403d61622c215fc8d5da51be72453396c8d;
 0x39f6d3a994cebea4199cec0404d0ec02a9ded2017fff2dff7fffffff80000001;
 0x4d491a377113a8daccd13ab0066be558e27e6dacaaa992a9ffffffff55555556;
 0x73eda655908a52f44c58e940206947ff5d1f9eff57f72179946f9c944ce5b231;
 0x39f6d3a994cebea4199cec0404d0ec02a9ded2017fff2dff7fffffff80000001;
 0x4d491a377113a8daccd13ab0066be558e27e6d6caaa992a9ffffffff55555556;
 0x73eda35cc550d3f897b61ce864bf97ed79458ff45fe171e951be72543396c8c1;
 0x39f6d3a994cebea4199cec0404d0ec02a9ded2017fff2dff7fffffff80000001;
 0x4d491a377113a8daccd13ab0066be558e27e6d5caaa992a9ffffffff55555556;
 0x73ed9779986ad809c52aeb897618d7a5e9dd53c87f8ab3a846f9c953ce5b2301;
 0x39f6d3a994cebea4199cec0404d0ec02a9ded2017fff2dff7fffffff80000001;
 0x4d491a377113a8daccd13ab0066be558e27e6d58aaa992a9ffffffff55555556;
 0x73ed67ece4d2e84e7afe260dbb7dd687ac3c6318fe2fbaa41be72552396c8c01;
 0x39f6d3a994cebea4199cec0404d0ec02a9ded2017fff2dff7fffffff80000001;
 0x4d491a377113a8daccd13ab0066be558e27e6d57aaa992a9ffffffff55555556;
 0x73eca9ba16732961524b101ed111d20eb5b8a05af8c3d6936f9c954be5b23001;
 0x39f6d3a994cebea4199cec0404d0ec02a9ded2017fff2dff7fffffff80000001;
 0x4d491a377113a8daccd13ab0066be558e27e6d576aa992a9ffffffff55555556;
 0x73e9b0eedcf42dacaf7eb8632761c02adba99562e3144650be72553296c8c001;
 0x39f6d3a994cebea4199cec0404d0ec02a9ded2017fff2dff7fffffff80000001;
 0x4d491a377113a8daccd13ab0066be558e27e6d575aa992a9ffffffff55555556;
 0x73ddcdc1f6f83eda244d597480a1789b736d69828c560545f9c954cd5b230001;
 0x39f6d3a994cebea4199cec0404d0ec02a9ded2017fff2dff7fffffff80000001;
 0x4d491a377113a8daccd13ab0066be558e27e6d5756a992a9ffffffff55555556;
 0x73ae410e5f08838ff787ddb9e5a05a5dd27cba01315d011ae72553386c8c0001;
 0x39f6d3a994cebea4199cec0404d0ec02a9ded2017fff2dff7fffffff80000001;
 0x4d491a377113a8daccd13ab0066be558e27e6d5755a992a9ffffffff55555556;
 0x72f00e3fff4996674471eecf799be1674eb9fbfbc578f06e9c954ce4b2300001;
 0x39f6d3a994cebea4199cec0404d0ec02a9ded2017fff2dff7fffffff80000001;
 0x4d491a377113a8daccd13ab0066be558e27e6d57556992a9ffffffff55555556;
 0x6ff74306804de1c4781a3325c989fd8d3faf03e615e8adbd72553395c8c00001;
 0x39f6d3a994cebea4199cec0404d0ec02a9ded2017fff2dff7fffffff80000001;
 0x4d491a377113a8daccd13ab0066be558e27e6d57555992a9ffffffff55555556;
 0x64141620845f0f3946bb447f09426e250383238f57a7a2f8c954ce5a23000001;
 0x39f6d3a994cebea4199cec0404d0ec02a9ded2017fff2dff7fffffff80000001;
 0x4d491a377113a8daccd13ab0066be558e27e6d57555592a9ffffffff55555556;
 0x3487628894a3c50c813f89e40824308412d3a2345ea377e62553396b8c000001;
 0x39f6d3a994cebea4199cec0404d0ec02a9ded2017fff2dff7fffffff80000001;
 0x4d491a377113a8daccd13ab0066be558e27e6d57555492a9ffffffff55555556;
 0x5e2fe2cf28f196e9d1c44f8816eeea0af790e4ce7a8f8399954ce5af30000003;
 0x39f6d3a994cebea4199cec0404d0ec02a9ded2017fff2dff7fffffff80000001;
 0x4d491a377113a8daccd13ab0066be558e27e6d57555452a9ffffffff55555556;
 0x1cf6954326ede3cead63b6083ed6201be30aa730ea42fa69553396bfc0000009;
 0x39f6d3a994cebea4199cec0404d0ec02a9ded2017fff2dff7fffffff80000001;
 0x4d491a377113a8daccd13ab0066be558e27e6d57555442a9ffffffff55555556;
 0x73da550c9bb78f3ab58ed820fb58806f8c2a9cc3a90be9a554ce5aff00000024;
 0x39f6d3a994cebea4199cec0404d0ec02a9ded2017fff2dff7fffffff80000001;
 0x4d491a377113a8daccd13ab0066be558e27e6d5755543ea9ffffffff55555556;
 0x73a05e38f205c5123c8dd86bd07c79ae35718705a434929853396bff0000008d;
 0x39f6d3a994cebea4199cec0404d0ec02a9ded2017fff2dff7fffffff80000001;
 0x4d491a377113a8daccd13ab0066be558e27e6d5755543da9ffffffff55555556;
 0x72b882ea4b3e9c705889d997250c5ea8da8d300d90d736644ce5afff00000231;
 0x39f6d3a994cebea4199cec0404d0ec02a9ded2017fff2dff7fffffff80000001;
 0x4d491a377113a8daccd13ab0066be558e27e6d5755543d69ffffffff55555556;
 0x6f1915afb021f9e8c879de44774bf2936efbd42d4361c5943396bfff000008c1;
 0x39f6d3a994cebea4199cec0404d0ec02a9ded2017fff2dff7fffffff80000001;
 0x4d491a377113a8daccd13ab0066be558e27e6d5755543d59ffffffff55555556;
 0x609b60c543af6fca8839f0f9c04a423dc0b664ac0d8c0253ce5affff00002301;
 0x39f6d3a994cebea4199cec0404d0ec02a9ded2017fff2dff7fffffff80000001;
 0x4d491a377113a8daccd13ab0066be558e27e6d5755543d55ffffffff55555556;
 0x26a48d1b91e54751873a3bcee44380e707a0a6a73634f552396bffff00008c01;
 0x39f6d3a994cebea4199cec0404d0ec02a9ded2017fff2dff7fffffff80000001;
 0x4d491a377113a8daccd13ab0066be558e27e6d5755543d54ffffffff55555556;
 0x26a48d1b1df79ffde9af1733876c2b96cac4f699d8d57949e5affffd00023003;
 0x39f6d3a994cebea4199cec0404d0ec02a9ded2017fff2dff7fffffff80000001;
 0x4d491a377113a8daccd13ab0066be558e27e6d5755543d54bfffffff55555556;
 0x26a48d194e4102af738284c6140ed655d75636646357892896bffff50008c00b;
 0x39f6d3a994cebea4199cec0404d0ec02a9ded2017fff2dff7fffffff80000001;
 0x4d491a377113a8daccd13ab0066be558e27e6d5755543d54afffffff55555556;
 0x26a48d120f668d759ad03b1046998152099b358e8d5fc8a35affffd50023002b;
 0x39f6d3a994cebea4199cec0404d0ec02a9ded2017fff2dff7fffffff80000001;
 0x4d491a377113a8daccd13ab0066be558e27e6d5755543d54abffffff55555556;
 0x26a48cf513fcb88e3807143910c42d42d2af32373580c68e6bffff55008c00ab;
 0x39f6d3a994cebea4199cec0404d0ec02a9ded2017fff2dff7fffffff80000001;
 0x4d491a377113a8daccd13ab0066be558e27e6d5755543d54aaffffff55555556;
 0x26a48c81265564f0ace278dc396edd05f6ff24d9d604be3aaffffd55023002ab;
 0x39f6d3a994cebea4199cec0404d0ec02a9ded2017fff2dff7fffffff80000001;
 0x4d491a377113a8daccd13ab0066be558e27e6d5755543d54aabfffff55555556;
 0x26a48ab16fb8167a80500b68dc199c12883eef6458149cebbffff55508c00aab;
 0x39f6d3a994cebea4199cec0404d0ec02a9ded2017fff2dff7fffffff80000001;
 0x4d491a377113a8daccd13ab0066be558e27e6d5755543d54aaafffff55555556;
 0x26a483729542dca1ce06559b66c49844cd3e198e605417afffffd55523002aab;
 0x39f6d3a994cebea4199cec0404d0ec02a9ded2017fff2dff7fffffff80000001;
 0x4d491a377113a8daccd13ab0066be558e27e6d5755543d54aaabffff55555556;
 0x26a466772b6df53f04df7e659170890de13ac236815202c0ffff55558c00aaab;
 0x39f6d3a994cebea4199cec0404d0ec02a9ded2017fff2dff7fffffff80000001;
 0x4d491a377113a8daccd13ab0066be558e27e6d5755543d54aaaaffff55555556;
 0x26a3f289841a57b3e044218e3c204c32312d64d70549af04fffd55573002aaab;
 0x39f6d3a994cebea4199cec0404d0ec02a9ded2017fff2dff7fffffff80000001;
 0x4d491a377113a8daccd13ab0066be558e27e6d5755543d54aaaabfff55555556;
 0x26a222d2e6cbe1874dd6ae30e6df58c370f7ef5915286014fff5555dc00aaaab;
 0x39f6d3a994cebea4199cec0404d0ec02a9ded2017fff2dff7fffffff80000001;
 0x4d491a377113a8daccd13ab0066be558e27e6d5755543d54aaaaafff55555556;
 0x269ae3f8719208d50420e0bb91db8b087022196154a32454ffd55578002aaaab;
 0x39f6d3a994cebea4199cec0404d0ec02a9ded2017fff2dff7fffffff80000001;
 0x4d491a377113a8daccd13ab0066be558e27e6d5755543d54aaaaabff55555556;
 0x267de88e9caaa60bdd49aae63dcc541c6ccac182528e3554ff5555e100aaaaab;
 0x39f6d3a994cebea4199cec0404d0ec02a9ded2017fff2dff7fffffff80000001;
 0x4d491a377113a8daccd13ab0066be558e27e6d5755543d54aaaaaaff55555556;
 0x2609fae7490d1ae741ecd390ed8f786c5f6d62064a3a7954fd55578502aaaaab;
 0x39f6d3a994cebea4199cec0404d0ec02a9ded2017fff2dff7fffffff80000001;
 0x4d491a377113a8daccd13ab0066be558e27e6d5755543d54aaaaaabf55555556;
 0x243a4449fa96ee54d479763bac9c09ac29f7e41628eb8954f5555e150aaaaaab;
 0x39f6d3a994cebea4199cec0404d0ec02a9ded2017fff2dff7fffffff80000001;
 0x4d491a377113a8daccd13ab0066be558e27e6d5755543d54aaaaaaaf55555556;
 0x1cfb69d4c0be3c0b1eac00e6a8ce4eab5421ec55a3afc954d55578552aaaaaab;
 0x39f6d3a994cebea4199cec0404d0ec02a9ded2017fff2dff7fffffff80000001;
 0x4d491a377113a8daccd13ab0066be558e27e6d5755543d54aaaaaaab55555556;
 0x73eda75302f8f02c7ab0039aa3393aad5087b1568ebf25535555e154aaaaaaac;
 0x39f6d3a994cebea4199cec0404d0ec02a9ded2017fff2dff7fffffff80000001;
 0x4d491a377113a8daccd13ab0066be558e27e6d5755543d54aaaaaaaa55555556;
 0x73eda7528f0b48d9511286526fff62a546e5d9513b01815055578555aaaaaaad;
 0x39f6d3a994cebea4199cec0404d0ec02a9ded2017fff2dff7fffffff80000001;
 0x4d491a377113a8daccd13ab0066be558e27e6d5755543d54aaaaaaaa15555556;
 0x73eda750bf54ab8caa9c9131a3180285205e793bec0af144555e1559aaaaaab1;
 0x39f6d3a994cebea4199cec0404d0ec02a9ded2017fff2dff7fffffff80000001;
 0x4d491a377113a8daccd13ab0066be558e27e6d5755543d54aaaaaaaa05555556;
 0x73eda749807a365a10c4bcae6f7a82048640f8e6b030b11455785569aaaaaac1;
 0x39f6d3a994cebea4199cec0404d0ec02a9ded2017fff2dff7fffffff80000001;
 0x4d491a377113a8daccd13ab0066be558e27e6d5755543d54aaaaaaaa01555556;
 0x73eda72c8510618fa9656aa1a10480021dcaf791c0c7b05455e155a9aaaaab01;
 0x39f6d3a994cebea4199cec0404d0ec02a9ded2017fff2dff7fffffff80000001;
 0x4d491a377113a8daccd13ab0066be558e27e6d5755543d54aaaaaaaa00555556;
 0x73eda6b897690e660be8226e672c77f87bf2f23e0323ad54578556a9aaaaac01;
 0x39f6d3a994cebea4199cec0404d0ec02a9ded2017fff2dff7fffffff80000001;
 0x4d491a377113a8daccd13ab0066be558e27e6d5755543d54aaaaaaaa00155556;
 0x73eda4e8e0cbc1bf95f301a17fcc57d1f492dcef0c93a1545e155aa9aaaab001;
 0x39f6d3a994cebea4199cec0404d0ec02a9ded2017fff2dff7fffffff80000001;
 0x4d491a377113a8daccd13ab0066be558e27e6d5755543d54aaaaaaaa00055556;
 0x73ed9daa06568f25be1e7e6de24bd737d71287b33253715478556aa9aaaac001;
 0x39f6d3a994cebea4199cec0404d0ec02a9ded2017fff2dff7fffffff80000001;
 0x4d491a377113a8daccd13ab0066be558e27e6d5755543d54aaaaaaaa00015556;
 0x73ed80ae9c81c4be5ecc719f6c49d4cf611132c3c952b154e155aaa9aaab0001;
 0x39f6d3a994cebea4199cec0404d0ec02a9ded2017fff2dff7fffffff80000001;
 0x4d491a377113a8daccd13ab0066be558e27e6d5755543d54aaaaaaaa00005556;
 0x73ed0cc0f52e9b20e1843e659441cb2d890bdf06254fb1568556aaa9aaac0001;
 0x39f6d3a994cebea4199cec0404d0ec02a9ded2017fff2dff7fffffff80000001;
 0x4d491a377113a8daccd13ab0066be558e27e6d5755543d54aaaaaaaa00001556;
 0x73eb3d0a57e1f4aaec63717e3421a4a628f6900f9543b15d155aaaa9aab00001;
 0x39f6d3a994cebea4199cec0404d0ec02a9ded2017fff2dff7fffffff80000001;
 0x4d491a377113a8daccd13ab0066be558e27e6d5755543d54aaaaaaaa00000556;
 0x73e3fe2fe2af5ad317e03de0b3a10a88a8a154355513b177556aaaa9aac00001;
 0x39f6d3a994cebea4199cec0404d0ec02a9ded2017fff2dff7fffffff80000001;
 0x4d491a377113a8daccd13ab0066be558e27e6d5755543d54aaaaaaaa00000156;
 0x73c702c60de4f373c5d36f6ab19ea212a74c64cc5453b1e055aaaaa9ab000001;
 0x39f6d3a994cebea4199cec0404d0ec02a9ded2017fff2dff7fffffff80000001;
 0x4d491a377113a8daccd13ab0066be558e27e6d5755543d54aaaaaaaa00000056;
 0x7353151ebabb55f67da03592a995003aa1f8a7285153b38456aaaaa9ac000001;
 0x39f6d3a994cebea4199cec0404d0ec02a9ded2017fff2dff7fffffff80000001;
 0x4d491a377113a8daccd13ab0066be558e27e6d5755543d54aaaaaaaa00000016;
 0x71835e816e14e0015cd34e32896e78da8ca9b0984553ba145aaaaaa9b0000001;
 0x39f6d3a994cebea4199cec0404d0ec02a9ded2017fff2dff7fffffff80000001;
 0x4d491a377113a8daccd13ab0066be558e27e6d5755543d54aaaaaaaa00000006;
 0x6a44840c3b7b082cd99fb0b208d45b5a376dd6581553d4546aaaaaa9c0000001;
 0x39f6d3a994cebea4199cec0404d0ec02a9ded2017fff2dff7fffffff80000001;
 0x4d491a377113a8daccd13ab0066be558e27e6d5755543d54aaaaaaaa00000002;
 0x4d491a377113a8daccd13ab0066be558e27e6d5755543d54aaaaaaaa00000001].
