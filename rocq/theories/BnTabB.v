(* The Poseidon constants of starky/src/poseidon_bn128_constants.rs (c, m) and
   starky/src/poseidon_bn128_constants_opt.rs (C, M, P, S) for the state widths 9 to 12, as the
   integers their hexadecimal strings denote. *)
From Verif Require Import Base.
Open Scope Z_scope.

(* poseidon_bn128_constants.rs:2418-3056 *)
Definition bn_c9 : list Z := [0x2088ce9534577bf38be7bc457f2756d558d66e0c07b9cc001a580bd42cda0e77;
 0x1b86e63908c4b12af43cec6810356c94d21c9e37d73dfff9742a58e0ec356be1;
 0x9ca022ba1142d170f755212e2edc9d0a4ace33e16825f540d5d50d5a021a169;
 0x277e69d47a133804241f6aebe9449be6e22c849c6d8ad8c938eaf613bc1aecd4;
 0x17b57ea03754e24ae0ef425aa2ad931aac9ba5457a18cec594545a235db6b269;
 0x11c740983395e0f4a026e2c7c939236375c9077755eb1a37a77d5a1fd74abac6;
 0x1cd85529010dd7e2fb7ea403515bab5727556a479c59b822efc5a81eb37bc5bd;
 0x2cb9354002cec4bcbfa985de34f43d702ced83d197aa374b5a1f96f87b12f292;
 0x1f7af98e08f6877923f27a3dad40c525ac52f56fbbd878506544f9acd61aa32d;
 0x2b15176925df33a45c9e99a7c4f26ad946b1075de58c7064c0ff92c431d31dd5;
 0x22c89859b4d399d3a60a322d6b399b88061358493f3cb3653fda940e988c1ca3;
 0x1a9f2730c80854d8f6dd98109363d405597039373af5055aa67fc18e5b1938fe;
 0x40bae2c57fc68e3ce5e294998ea060e2563ebbac58ff8fc4a1a0a40575f0ed3;
 0x16bf4f5622729467ee9749cc380605d2bc4d885cb99699aa2dd8565c4faf8b7e;
 0x1045ecea044ba1cb1c3bf07ff4968390a3ea075001b21637ec7fcef61b11329a;
 0x26a319fe6b7d6e08dd6cea9587cfe3f523492ece769f70f66d3b6197a262fd09;
 0x28a5629b4c2083387eacb09c1571256d172ef1ed9c0738686da84216ba81bd6e;
 0x186be22b6a063d18cc8760dba63b119cfc6d8897e32d6a0b19de280532fa9726;
 0x2c41eaf9c0128c486c5595a1ced6b3dd15bd9b73218c6af88137cb8aa5c574e7;
 0x11864265d76e8873b4d2ceccd18dada46ab7213321dbe0683727fa2df7e3cd7a;
 0x1383e7371d7f3eb75f97461ff79565538166ede6fb6ac68b02cb60d8322467e4;
 0x1a005346e9edc59573e3989f34c304ff1351de9642f398163602e138c59c7469;
 0x2b541345bc4fe1589d649270ceed4b2dc6299c69a5d24b460e36f3b4eb486052;
 0x213e74e3b88692068b420fdac7a62f3e90f87e8bd993310b982881b4ea7eb58d;
 0x254370fdf60e319df5d27b984e21d8979c86cc6c9db77b47e9e037d41ae2b84;
 0x83b7377987bed3fbd0c5ee3279cccb319adaa660bb6a79ceee627f5a6369ecb;
 0xa2b26bbf2b84a55bc4c5b09b209d4a77bade4ecb0999e2a70021cccd4fbce1c;
 0x287090d407c4c5293cd72bdd881ace1a4785c51889ac9ca053faef068533eb09;
 0xa9fcc21a234bc22a473c04931dde66476001ea6e32931277ca4cdab62a8587;
 0x1d79fcc5066ff2a62d6ec0c096f3c0623f9722c5d10d6411386b8cf06606d116;
 0x1d2da676081b7b0a7d87a57c6a6f2c91022a82291934ae8d646814f38b7c9cc3;
 0x121189d7362dba92f3bba28737ea247e85ff4b3ceabb4eadac26f7a79d371ad;
 0x3ba01bdc7f31b4b3626831d5e82852a5da5a7f472f497564362ee63bd6d6102;
 0x216487ac4eea81e4d835b220c7f1e7b7a3312df5ed0b6e606a169bdec89a35cb;
 0xeb5eb424bc72e5b20779d6138a7296dc333b4d98e4cede698c1d8f3069fc804;
 0x1476087ee68863fe69d538de90f90bf271875fafec3aac6831fa17811afc45f6;
 0x25995ecf079f4f81925ce8050e6bdd0b440e7adfb00da7e4dfd8a5aaec009f32;
 0x1b590ea145df6152ff0e8eccb97f057eb378d3dc8585a8195a8fc6b03dddb21;
 0xebfed12777ad9747734d82fb7ab59ebc85f07c3d055eb987dd42470e016bd52;
 0x2e03b519ff070e31bad1ced25d02de18c5c073355890f26d6437c9990a3e232c;
 0x28ed48befb70534a157c0bc8037347830ff6f7bffeda93a22663117c3038109;
 0x21d5480ef2288cf37627083f5c6ff5806645d7878339792169d109945aa879cc;
 0x2a017f4ca62717fe9d616fc3b74f426a22666a268eed190c92513679ff531866;
 0x85cf123084d6b4b0b2b34cf06cf6f893e0a9db664958560e13102dca258a182;
 0x1cab1eb61ae5a9c4f1b1f0f4cf71073d063cf8ea6ecb3a326bc3f2f24fc30ab;
 0x8b659a737c0a7e198c51de07438e7faee94369715042367495f0305e89bb96f;
 0x2b3adfef956007ba949e044a68115b0a9c895a81386e769744e7b5b2c307df6;
 0x1a502a7b0883deaf9b24a7b451cf439d9b04c40af2fecc172b057b4fc00cafa6;
 0x3048a536a2a75af41a0fa596752c83edb19c46c00e4072516a2cce33a42ce949;
 0x1d008216832f77736b9f2c8eaf18d2ae69a7595a3d2e8725e75b3e9c66ab22c;
 0x67389fa6719bb9e493424576d30d6254f1b7d54e69e1d1896c1b15ee85c0c20;
 0x17da04cb5060861588a4dee60dacec407e08d6b19650359452705699bcdcabf4;
 0x1e110b24526cf19448a04b71f91f834d903a08d3a7658e05ff0104ce6de14af0;
 0xb0a28b67269dcfb242231c7384d9b96c4406708f1a7bec26160e2352a820e34;
 0x226ba223bf5cc831bca604a2f55b324ad1d4b29b81ae33cbd7391ad0dca0c61;
 0x1fa506fae71f617db6a04dba21eb6224accac5f7cff145947093bfce2f3f5cfc;
 0x29724cc2973b5b34c4e53fb981f273589e7e0467a5b4b5a16d596f48844f0394;
 0x20185815e6d5bd43d769b1e7b3a42369db44fada44534a9e41a181a7cd90cac4;
 0x2cb5ecab94a2faf89986b565545493d5d8649d73a9f53133b614af6d89376612;
 0x6772704a6a6c396f2f186272db825135c5986fbdbce0a3fd879bc27ee2134bf;
 0x112bff4736679a477440e744d7fc6191e168efe6c37fd0beeb6e64d30591851;
 0x2faacc248d2f742b7dc50b013be9c4b2ea8d00be172832ad07ac0e268e391a57;
 0x115ea053915c9231d6b9a71b4f3437e76d08af6e8fe7e42a3800136498df40aa;
 0x353e2c2845c0fdfc53f58394e2dbaca06164d10dbaf756127621b5a22181235;
 0x29b3685900bbaca910363ae0cdec5f61cae2c52c7ede3ec010e2afeac748710e;
 0x1a73ba985b824209d0a9f310920791fad9227b21bfd8e8a3a9f1c2fa89fac1a4;
 0x274682d63a1d6a9eb5ea22e0558b145f5b9b5e845c8c9dceb83be943309a305f;
 0x249de663dfdf6682ddc122e02aac0d79398f38e6089d92e2c892ccf949fcafcd;
 0x76346a494ca499918229d2faf87b6b5afd4992f0d7d4023cbb677ea4376d4e2;
 0x712154eb43b0a3e8bdd94e29ad85939e220daf6931b84464741e64e9926b50e;
 0x15bb7e127b9fc937642692a92d864960e249ddf327fc6c92afdedd89befc6c32;
 0xd438d885c3fce5b06a80584015eaf7a8ae05c60052c10ab80d80076800d8e11;
 0x2bffb873c9b04762b2e362d6195c8013dcf7a5fd881894b7dc383c8aa34a9e0c;
 0x24ea42c76f7350d08e8b1016663fdaa3f8552b9564e5ba2da45b76652707d6c0;
 0x2a62ea21a0ade4740b808b9d838b4ef205b1193b579ecece0da34523c481dfbc;
 0xc49774a68f5274b468cea0f32211cc9a8ca864c6d32f2c644b1ab89edf475e9;
 0xa9b4d3d32564d83c24d4e052dc3072cffd61cbffaec957151fead13246073cc;
 0x221179d848ae3c29baa0de8e19ad399cf000dcfce572ac310fc64bd4d201c3a1;
 0x1702294352579a43d19da15dee1fdcb2a70a45de25203435e2340692f7f5e0a0;
 0x59ab788273600685cf6de04f87ca9dbbceb1aefe37f779663a7ef5019d4d8e0;
 0x23af64b1622be07735af1999691398ad6a034029a109ce435f12c1b21b41f599;
 0x109ed21e2456ad7f94a0c6ca6ed942ef5e8132433e5fba6ed8f49b2038594516;
 0x26d9ccfa5379d3fd6927a58958338d6037872271d891f19f67f70c39e0893326;
 0x24ea9e2db358c1becf7dcd7d0e46979a647207816ae5a901fb00a6ccd991d0fe;
 0x15a9b8c33fce93ae3971d193a430be98eeca1d27735974cf502bfb20c71bbc;
 0x2bbb366f79bc3baa138d79a96ab5cd14826bd3a85347e559550bf351f296dc1c;
 0xa1c76641eded157eaa1bf4aadc956791d9e7b29eb14d07654af052686b70e29;
 0xa8a9f9ee8ecf8ad0b5cd84217af26fdce2ca16c07bc747d103abcb48ab21fc2;
 0x26d6852b5917f4e229c46824d00b44442b77d8e566fe3b3901ba6de2011dead6;
 0x19601734c30cb2a44ee4a323b35f2c171ed67e0f3c1fcec7096e5f01fbae6885;
 0x7895f7f029f84c3f17e359b0ee926d402505587f386cbb71070bc17cc87d044;
 0x5807e0a2b2473f3b87130586c7868228eb4d9503bf25cc2b0f35a939e0ef483;
 0x1ac9ba8eb9e2fde0a79886aa8c7dbd362aa490a355e07982828be3e5099d2fde;
 0x231c7595f76fea5828672afc5bbb6463cd00e7a07346e2588af5638e3b321b40;
 0x2e3d1677310217ce5fcc58f4039532ff946e2eff2b80d17f581ca78f0068672d;
 0x974163441712975a33b4093f922d7df17b2bdce7b7eb02c7830c5980464000e;
 0x1cf5c1a4280822a59deecb82a64baab4edb87977e98ee29139bb51671b9919b2;
 0x11ad46e13792150cf57933aa9476ec9184bfd5f23de46f1df78ed7e94cc81289;
 0x828fbfc0951c1ea0c0f3d5af2fe5796ed792a9c3cc4002b41e7a1bb8e63dae7;
 0x2c720a8486e7122305304ecf3a00f99854535c4ff404fe82e30e99e8500fcf6;
 0x9bdfc942fba8824c0a38d6f525f9176360d2881aa425028f1cd3a7fc3ef72c2;
 0x1d954a0f93250e5581c6b897fbd72f4f2a943dde51e262e7dcc4a1b2ca82e2bb;
 0x2b829352e297ab2106e74f9fe702f69635edf37e7ab0e1a7f92f14c98aed56eb;
 0x12d3b917e58f1f44e1babaa341d1dac923dfac75482e108af1c33368734a904e;
 0x28a9e6c65d06ed6ea47795bde9b177b5509305f85326062ad5015077afe4bbfb;
 0x2bd3c33ae311c2f8d4ad82508b76df890c311fc8d232fbc2dc535fa593221ca8;
 0x272d00d7a8fb1463bb624f1dd774edc8f3a0923bf9059bae3d84da23767d6873;
 0x1355a796abdfaa903b81dfae32101a13068f5070440552eee0acf2a4d07d03bd;
 0x734bcbce4180ae16d4a6689b9b94f2b02cc7d74ca8ef1592cd16afe2a033728;
 0x778d4a614c2f76e28199d989a9052e2627464b620d91e7b6d3d15dbd4799d54;
 0x16bbc980a67b2a65434d087c501859d127db377ae144ff634cb8574fe8bf869c;
 0x12a3e7e197b0504c6894366245bed65e326db7c7aaf2c1c0d59e4bac10d633cf;
 0x1f35f8c4431fb0dbf42d9d07334fd67f99160fa9f7e20d811f4b8fea7dd5d33f;
 0x25d5bf1a863a0a6441cf55e7c85b8f232ff1556e77fbcc6d71e8bdf349bfdfbc;
 0x15e6b8d9ab7e063a3638216ae471176e87ee4ce30cc24cad19587a23332320aa;
 0x1929ef47c7322b77ebd0d1a40f9ec4d41eb2641bfba35a9cba7b708a534c9ca;
 0x184f51e791edaa2dea7911151247bad4b0e864d7a8f678c7708ac65c51e3bb79;
 0x2605adf5562d5055ffb284df1ec0d4e371eee0595ce1422ac535a410597cd866;
 0x6e6d41feb832c2fe007e1bccc81442585bc9eae1612b8bc3d2a4925c239ad51;
 0x137eb7da068955cde28db6ae5e780b7ae1c0d633cdd113bf0fde4345ac9c954d;
 0x2e97930eb419f7353ba27b25879753fe64d7d187023ce2de4bf9e70eba6e9bb6;
 0x13af409362087866e62d6860fdab159207405bf9c75a9efd9321736a1d812413;
 0xfd2f95404a9e92f46d57c80507375724966264560ebafb3ff2fd19259d47d62;
 0xbdd93ac21aedf31826fc3012fc8fff14384add521d98135df3ce70e47d38116;
 0x83ea678d5a53e8a9b601906befbef23811a6137788bb873fefd5521f7d99f03;
 0x8a9906be6e9ab93cbf1b94f090df2d02df6c6ccff6364c2ed6986d61f16af29;
 0x187b1c82cfaf880449337cfa77f618e3ed19c604e65fb768b0333d8d535eaa47;
 0x245005f814e38250751143117f5e27d5c173f0ca4ea2a81b1b8f3e90d7fec4f3;
 0x25aa5a53ec5e71f3f47fb1cf8ea8c757fab69a61274fb36eada71deaf1614db2;
 0x1c244a2ed1922753b39ec6b775f07cad91b14cd9b6578b64492c2cc4b0c8bb9;
 0x1664e5c861216c4cb10cf3a3bd51afa0f3e59eae24fcd7e7daaa853d46c382e;
 0x2af001a296c111e41e327ad212ed30234da2beada0449ea1d2e0f0a00e424074;
 0x16022bdd67d2ade15f661a287dfe23915433b270f28c24e6066e45039aed813b;
 0x132d7ca5f935f3e8864268ad723e8780df36916384a54b812c74a749a26826f6;
 0x20bdab9829e48c89a99d0e8b0d69b79a4a273808807ade4ec5db95fd184c4f37;
 0x28db494350ae9c81ab52d719ea05f98dc2afe87bc1afe556161e61772258a951;
 0x19fc92f1d2c1dc043af3427b77ea74e80ab9f6041e0e51d1b24d9cb9f3fb3ed0;
 0x16bea7126b8f072ab6c86afca80b606cb90c7e5fd02bbdba1dd733c3cb884705;
 0x1fc57b168a5badca15a417ebb4bf5beb28fd09e0dff889550a126f5833f1fd5d;
 0x1ad20d1a3ee559b6334be4ba911dec957d56699cf37dd7b97d23dcbc65bd9afd;
 0x2173430a6842061f027393a443b6e25e59a3e5bcd20895ade0fcd7bebcd88885;
 0x11673173043e15137361db05a0b067147a23d7f3003680f3e1534b183fe27cd8;
 0x37c80af5ed51c1c22181f3e7738806984493eb998add05556eff65129259ff2;
 0x1d70b961246d2262cacd8c0954040548b63fbd25f3038285c36f6b44e9b9ff5f;
 0x2184448a7bb80d176dbe3de73f383a909635e4610c25864b2c63252186b6c44b;
 0x3bdca6b22fb80cf9e7b317190ebbb9f6c7d3c96c1bf7d5013f36521a5dba7d0;
 0x2b65873313d5bffa44d510dcb3f55048436f4eea91a100ec0d1af952eb64b247;
 0x2a7fd02ef10db1c9dc03c9cbe82e857cf06f37ea10e7e3f539b53778ca274616;
 0x1cb880cea192153865713565ee4255ce72da23b3d2142d265fbc2196fb8b569f;
 0x16628b6f83fc36bbc1d60029a69c843d27484f594a7e3ba8d47cdfa548a91a56;
 0x26fa9b84e855f1069e76e037104f8886b760d4919bed798e2e4b8dbe0080f16e;
 0xee86c87bdf0ecd526e36a6c4ac9fc9bf05b9161856d658c1b9ecd80da9e9687;
 0x8a5179993a8056405527cb82b6f619984c63cd115ffed3a6734ffa85267191f;
 0x47aa61e4bf0721ac4e0a2f291e62124bcc2ad3949dcf96e875f45df7eeb5437;
 0x263a511f033e1fbdc6d282b52712a09bf5d1fec21ea8bbfe2eb1ef5bc4f21148;
 0x226520bf730486e2d8c859b449bbda7631b86432a2c100dd7386c9b1f993f34e;
 0x2baef27107a52854788f0c5a940f5a4df0d18d38b893cbb1157b386a7d356357;
 0x18022cca17f26818d54e60e300b5c949d9c92122f7de5651a60cf70c8da5fc52;
 0x7baad301d58460d1e6ed10f52abf1bd785caef8565777fed94dd67de6717d25;
 0x1e476106c4bce3903a5aac6e110df2cc1a7f71b4135be3662f4b01047e248a6a;
 0x1e019dea5028d23b2df063c210466a88c3fc1ebdedccb8045c7e9d1bb6e77a98;
 0xdd55f006559bb6747b254d29a73f5ea7174c6b6067e730a5f9a9908186308e2;
 0x993085a8024a598e0c9059d3b919fb2ebc81be408cb96fe38a48a952c029189;
 0x143f3cbf98e40971b2115493ee06e26c7893787bfcfb13b39f165869ec7fb9b7;
 0x525ff28fa24291b8d033b021395754fa030d497312cc17caafd008524eda07d;
 0x2d9fdc18cd2586b9f449142017909392025095182d5f40d5911f708eb05cd852;
 0x230997202fcd6f051e1bf1e59a9d01188e3621d613fe0e78e6dfb400efb43f45;
 0x44b56469ffbbc9d0c0f075e20f390d30d11981a767e507b80aef7ed69e7171f;
 0x1507d88bbe10b21c23a94555d1e4d379aa71672e002450393eaf7a23736150b7;
 0x104d6752a761b50026377ec798404f71151b3cf6a9ea1be93c6840594824e9b6;
 0x25276305cdeae4c16558de60da72941446a9fd2226aa604d44bbff12b1e0ec23;
 0x10f3cefb054d630bd7dc4c7cabd97940dca683dad8cc35a6d0c30cbd9812051c;
 0xe406cbfa384c6b24ed043ff3cb1d6891baff0585afc4fcecc7cccec809df03d;
 0x18f36033fcf64f1bda0c12616b00b611863efdb8966db7ed3534cfda40aeaf0d;
 0x165d022a34cf10ad3255723635a51a35ba2a6db07572dba106dc56ca6c937c52;
 0x223c8c9aed305b3d18265b56ecb7a4cfc4b10e58baa1365827a539c47819424f;
 0x2103fee94674840b1aa185a1f8221ee4511a2b5268f1ac96d7b28c8984fde6d6;
 0x1c1396433bb9eac9a02abf2390973c1723ec5cd55297a387a92806f78ef9d384;
 0x1befee24005a88d2c9ae9226169e898106996fd32fecb72b0cb4decf109f1b92;
 0x1adc49f1f1b405df727a64e98675ea0ac2fc742c806f0d5950c8ac41350f5184;
 0x10a0e0cab76db0b6a00799dab1f2e4a74ef739173cfaab2d03eae240c9c847cb;
 0x1a9aff62d6c66fdfed0eb91b6c4f974c1e047c0b27ef49b10d2933af1af3f997;
 0x261967f6840995daf7411034526eb5ac725f95e21fc36c8ed191873985f95cb4;
 0x1338030f85fcd2fae09eb016f4254086e1af2f88fe7dbe29d183c89ed5286098;
 0x2c53745d1f0e66499ff109e777727e750c1134914cbb4d52bdf1649c7911ada;
 0x2740100354406de4d94eb857a1c5df1c0e88d8b0b82d10c1276ea7d9f62a05d0;
 0xb8a9153d3d643f0a9f7dc08f24d70863e4f150d1c32ac8905a6226887c9bcef;
 0x25dd73d81ea8918c9c1ff69b0b86a0ed3801ed1aa4059d94eb72cf548b2eea1d;
 0x253d813cf05f2ff1c7d6622bdb9faaff277b4d0312a5888a9dcd12891ad1526f;
 0x2523322d2d2a78cc54c944b57752bdd8d2c8e62e3af51e020eb2c15ed830f5f6;
 0x2ac9c2d60d456848e8dfd47499cdbd4f2377f3b4ac98e10e2ae3e4f83b0071b4;
 0x2a4e35f1df833442f9ccb8c75523b1ac8a9716174f47fb0830d94f9bc4386bcf;
 0x270e7f6b15f2c0e0926147cbf79a7330b676d174acb65b730522dccb096f9fdb;
 0x1933ef75d4b862f2274634e1f5a4e50ce899f15214f0b8feaebb2ca2ef52ced2;
 0x165130ddf77a82db84278a31841109da4108d364bbdc6acbb1b0fa7aa5175dc5;
 0x2fc1fe031dcd4538d5d8b1340d0d37df5505e965b7e7dc4c19895b9f6fceda6c;
 0xe1ead2be6f64559d903eaeb6e02a7c85d546422e7730e360a1e4bcc0f62f16f;
 0xa983360bf32392d5df30a2e4b22535a4f161fda3d05b1a5067d278e21c8e54c;
 0x2e27e61828693607c17eff9bb1e5ed0baeef782e879c5230b86d6a79d729f4ce;
 0xd1cea26a08207e522ace505e837caa2ce7b105cbd04e7c838c1acd006ffa53f;
 0xb958dabc9a8066de9e4cef89abc82e3396a03568376fb44ccde4c38cb2a1944;
 0x16f5b42d88f8d4f787ffff796bcf8175b1cdce307261dec86cf2034a9b88bbe8;
 0x12b68aec2db262e0a61f0fd4b976b00ddbcf7546ef27f47d7435a288c2b6c63a;
 0x1d2238d8d9768dc639d06ca5870e3503f3f81ef863300944c87b77628ab6d84d;
 0xd164e32fca3c3c8da3ae332a831cc9a95e75d4833ae232ae382bdc6b790d91a;
 0x2fcdde6d6eabd7f2fa19234fb157661b762a5c47b57739a62000d7f6ca8ef3b;
 0xf133b8b1e54f43484574647812ca377c802a1590df5e5b8f9c8c21908efbe37;
 0x3057ea8932e9bf7d1a4bad8241e14f1e60afd13ba4e90afb472d9dd29c42bde;
 0x23dbcb6ecb4807740debdc825f7764571bc93f33645825d0e45c88b0088a9f18;
 0x1b90754a2058217cdb64ab45e24c2e29423bc3a76f8289579927ecdf63edac9;
 0x28db800ae16d7033c8e107e198aeaabbf9d0271c74d957c6bb9514a0f038fa91;
 0x2f97a36ef93a7904cbdbdc36e5ef374e58eaf37b5b9439473cbe477c3fab178;
 0x1bad1d9637a6ad6db5cbd19ba7b955a45b9e8089d1697445a130743e03ed3caf;
 0x2b96f520dda8251a878b28bf96d281855b9c43220b0a3279179753f740edae80;
 0x41f97f76c60b28e0fdf7974bf922b7a0999e0e0e40c654378ae12843212909d;
 0x13b5cf57475057a2f5fb6d08093123973aef9726cbd9835b95616c2aed5588e0;
 0x2ca43aed5aea162e8c9be92a15e7ad0af84d44f3d2e398b5f7491fa2df12deee;
 0x89f6b1ec8b51cd1e6ea69b9649520a6f0f2f96ea11df270ab0c5d9adb5c3df0;
 0x4f510cfc7e528370babb8ed7c50c34c6041772627793a0f3711d1300b4d1275;
 0x260e12c47d0ab52563affcdd5c2862f4bad5b7af4ee037ea5f8164d0f13d1059;
 0x1a656424760e75468aedd8515b3111e16cc0d60f8dce451f7bb35b12dec772b7;
 0xcc850e959c567bed20058b6769fc27a6c70cf72f222b80879e9bdfbc6711a9;
 0x88947910eb3b43ebd8688695c64ac020e19d0bbe875a7f3a0b699bc60f18cac;
 0x2c25c236bb48035f45fde5b178105655ace9f3f9afb09071e790dc4babdc86be;
 0x12dfe1bc28654f5c9ba65865769c9e47f2bde0d79ddbdda21704904b2905da68;
 0x5645b68f99a564ff08f745e1413bd83ab5b0442f0b8efaa2a986a6cfb2fd8fb;
 0x17cf3ec9831b4d6ead640d912e41b4c72e9c259126bf6310fa4b110e43864c75;
 0x12b15f28fefe5d6fa519ab9cc67a78c57dd721ab44af286e72fbbd5689a66f61;
 0x2da44f7210520779cbdacfaab2e1ef01edda8eedb6fe6d037ffaf8e59842a00b;
 0x137ff7323fe757f32afa165f11588b403bd393d5c9a961cd2f7da2e5d9a894cc;
 0x1318105fa9fe1549f04ef48679c73d46b91ee0bf27b4451195de945c8cf78aff;
 0x1408a4259df52a491775936b2c2d476a121708c312e635ef8d1f843c3ba3438d;
 0x10cf20dd5734c18880dec5be44ae2ddcc4f447f20cac98c95193eb7571585d07;
 0x2787fe4623bd3264e0c8b5a471974ac1feb1e37fbc3a9c8a4ea74d6010b7d08e;
 0x1b90e21074907545c1dec3c59dbf2a6b1f703258bc03707e33db582d45ab172e;
 0xb8e912a5ec5a0bfb779a0801b90863edfd9429a7b3632bb5022fdbc40636cfb;
 0xd9982378cd9a8370bb7a555c34df3183ee6b0d8abf31f1f547a3993044188db;
 0x1e497bcfd5c95cdfd630b0afbf6d376f29a468d1cd3ecde56f6940221d248af4;
 0x2d602401cabbc69dff3dd552e271eec29a5a4acbc935686ccff9a15076585b7a;
 0x170a5f4518f58544330671ad2a361f2c803c0d355f3e10a5784951f2abefa707;
 0x21b3a23c3a553d401c08502eca497be938776af671edfe44c784956acf98865e;
 0x224dd497bf3a4247b9c48c9ac3cee5307490e824a14204ed88c2b1166e8e479a;
 0x2654965a3bf3c92422fb54e676ac8401baaf0f68d42664e300624a375302e0ef;
 0x1d525f4105f51b69c006828670e7785b726e95be160ee1a3e299677820839f32;
 0x28f88d089f421ca2bfe697270fc0f34f50ec41a1ede53612c52db74479b4b323;
 0x82e621153ee34324e9fb7ff3d123fc9560ef9af0fa0f948db24d1c8e6f07a9c;
 0x7f8578337523867b1d9403e9ca61ad99c0d7d5bcde4f19d8752e12a4d5805f7;
 0x2e52f30dd05931adb7d7e85255849b062ba1cf2eb8d59208b5bda8e35d69819a;
 0x14cb3e56b2b8c6605ba04261a8b117791caf26f7c233bb183f83f72ef4c8f345;
 0x2fd6b4e6c892609fda21414dd8712de845eab305be627df4d36c8d325c9bd7ac;
 0x325898c8434f7ca32ebd73f53df3b1adb0c9940a69e9191fd996a4a96157bf8;
 0x8f50a7b584dc022b85d6a16a0d3dff6b8a7ec4dcf5ec066f99fc4644d6d5d48;
 0x29c5bbb8eb214fb285ca30a43cfd7141d9ceb8a19ff3c970f2bbf4c9bae9e11f;
 0x1264cbd9ec001175211e2856a78901e4088f1eb7eaf5934999e1997307e7432c;
 0x28a0e7819aa0251e9cf2bdabf64fadbd51dc9416533ae33f7cb97fd177688504;
 0x1a9be651c412fee6c800848477cbb67e4c52fc23e51ade9c48f6af307ec621d6;
 0x1bf70a24fe7fc8946fdde6f556b3ed4b03c33005cbe7f34ac11296e5b0c75f6d;
 0x2f56c8c0387e5e44cf4921abd33b1590cad0719e932a36195c5138e0c6ac83c2;
 0x1109db87b7684f4927b2afeeff00608af5f211920eb8d638e3a7c943b293fede;
 0x1851c29804025b6f9c69c80891035590a51d13032cd576d332ca89222bc75787;
 0x909e4cdc0bc47f2df4898106b5c40f25c7137e1d5ac9a986c9f66fd5dfadfba;
 0x2ae3e90e2650e286d5913d4dd1e71d4f233659701b319aa228e16af9f010e07e;
 0x6a6c015f95173441f7a40d4f1bde04eb60fbc4dc72fdab7dd81ec557235d530;
 0x2f6ab5d35ccfe9ea366da257c8596fa6ff30d6c46816a3bd3d484c97f8d2446c;
 0x1f9c60308182eb6d4a83f9272bc220a8745d9c9127050899bf6426f7ab57cdd;
 0x2f514c412bfd9754e6798e4c3cb13d5e4c4b29609d3ea5617ded35bc01d799d8;
 0x14c4162b9c9eefb97941b1f133bb18225d28294d092cb8917afcb3e08abcd9cc;
 0x19921fd625c66ec67ecd8af3d6ff0e0a3cb650e1e72b3fc98884b00354085b32;
 0x1c852aefc9296753e1268739ac15d2c6d21de3436c816f75f93b8debf37eb6ca;
 0x4bf4a69b1aa4f304afaa1dd1bf60de1f559e8167edddac1eb88ad9d02745fb8;
 0x240a791f3b8bb62d5d9aae80f341cb569fe3fe72e7183d8e5830165e4d123753;
 0x151b295b4242e0c09fef7bc5ef40f1e3c8551654186d62cc663ee4f28ff5e764;
 0x86eb3d30bc4d80664a074a09739dc8c497c93cf7e657954b0cbf7676165f23d;
 0x17aa8992d7b901eade7eacd95a8e89382a292a7121ab0ebbebe0dd62622c21c4;
 0x1a5b3345a4c0d875663657607b5c7ff832f489b23a3c43962008570f96eb8de8;
 0x2f03b46d9eeedcd7f8f4cf2cf710e48ce3f31d1364f03345b2a7964b01e6347c;
 0xfef583e7e8e102feba879f7bd60241870a0291723aa354a35259e0a40050d45;
 0x2e07b5d70ca583cf4d9baffacd02d7d80fa5e523abbd895086a36288b969fa6a;
 0x24599dbfa1dd1f4714d585248cf23ca1394b858af8e904c0517baedbf2f176df;
 0xa826afd370bcb65b66189e8d986777e61377388d8727e407b500fb5291f8ee;
 0x28745950870bc1848adbc5f4bc03415f0a2bf23e905e7d33cad03de907081e3b;
 0x219e6dcda590fc88d405673d2cb4710f8b5747b46dd9914d1be4081714cace58;
 0x296692077b42e972399f17ba71ffededd95185ff7253d9d1f41747c6f27dbe6a;
 0x2ccc5f0e2049d426841862f32f8062829fb5d826a6a483dd5078de859f9cbceb;
 0x4f915a4fabc8ab208a615dd89fa207d367700bbb9bc061d07fa90a70feffda2;
 0x2e04b7c1aa853f9ee5e4fbb5cd7b6e60ccea4ed5928a34f4e59ea9eba8794708;
 0x8700df51138b36c0ef2bed12bd78340ec69b04a2e1b865108036391b4b6db3a;
 0x2503336398f165bdea8d4929db1dd0b3710416fd63d7aadcec41bb7062c24782;
 0x5633785a50a9c77573ab10d893341a0cc2df072ed8eab9a2996a47a527bdaed;
 0xba4084e44c50e1412a4c982dc0d8a0d4622513b7c96e9fccb2c3be2d3901e1c;
 0x2d6f32cb761406dfa9e03d7ff8a43bae106dc4519c61c3996cc9cccd8f307c86;
 0x2f959c830737e631395846373b1f7d003c8e6bae3aea2edb73491244f8373687;
 0x14863af59792adb1bb40901664349217498d999250cc0a858db27aed54fbaa38;
 0x27623d101b1f922899f9c5783e1fdbb1e7552826e4d6b58d6df8d986937cdc82;
 0x247328a4d9ce81603e37ea72cc5d1c895c21f09305301bf1411c0798602a6268;
 0x1921909aaad03cc78a6cfbed6c1056e3d93a25a5496cafaca12af4ce324c6081;
 0xa85c0358cf388b47d14d42feafbdd4392df154f649b7213e29cf101aed00d80;
 0x1bac04734a5920d65d67aaee04165de621beb56f902ca483860f7077537512e;
 0x1dd1720966b3231bb00b08d6b8bac6c76dee5454f784134b93d8c70ab3eed999;
 0x22897debc6eb2a7f36bee1e7f42ed4b0d37ad696535d82d39ccfbbe92e86c08e;
 0x2ad01bb42b95d113b3b91ad88c69a33c1e94dc85512bc5168ee73065b387e175;
 0x2e82bd0a053ce03af9aa947df5f131791529a57f8360a2cd697eaa177c6000b0;
 0x2d2daeaeaa93a5f9d8b6529f00c4c6d691c3bc4efbfc8e7c2f08ae3e44e1f4bb;
 0xab08914b2de57397983bace0b327f98c1a9c1e58c76ef2e716cc305727a0f72;
 0x2758796cd1c178ed0c433c4f1b6b19d42ffa1bc884c3cd1ccca107cb2bc91998;
 0x63df5b0349016e7bda4741ec898c74e4a30fc4f1b59fb713a824992311e30f4;
 0x23713016555546753d41abd69e6fb91e4344b7c05838048ed0641cedc5fc6728;
 0x26bdfc0a894998e693b7e2059d6a528aa86ab57eb031b96b53fe8b5adb74c075;
 0x8897118f75cc8e9115dac581b9553cb407a1de135b632541bb734f53985286a;
 0x2ef8eb2c7b26f7a57691ecb1e15a40afa9b3a5557abe81146ea6f6d4960c346;
 0x254e8e5fc11b992348fd7a2c9f4a5a0b586bcaaf12603658b25910f63cf08b01;
 0x2f41c21b73dd4e7b510dca16e7b4b4277301da5fbbd59db03d3a32b89c57b7c;
 0x253f09ce9ecfd2aeeae98ba1b29806bc2871e5fc67bff13e303db99618e1d0a0;
 0x4395eb655582d03f25775e66ae67be0aaf7c63ceffbbea9226b04b0e795bfc9;
 0x13711235c3d21dd749e3e41bd048a32bfa2e796e26b72e05c999e6e6126e402c;
 0x83c75117510a37d43b5513963fbd0f9f33590ddcc297e3cdd9ea42add7a175b;
 0x26cc9b5718d84e606582d35d8fdbda944c6525ddcd7488cff21d4d0d823dcea9;
 0xe8978f047929b1a94601499634a8da020b9a46d0b1187d54504ed8a344d56e4;
 0x2b11423af39a5d15be397439b5ca50aa9a6d41234acabed2006247688f6fa805;
 0x21a56381040c702dda5a31a5aa275ce692685625e5aa77bbc430382573b402b6;
 0x19a869e15b3f9b965016feca2cb82a2f14c800945ba49db74aad8e9346af07f6;
 0x2b01c5a2baa16f9569d4670098466f05bf3ae097aa930771b76f24afa6be50d5;
 0x586148573b6b56617f94602fd6c86ad4a71b3fc67a35448d64eaea532582124;
 0x40352e19809dd93bc7a2c549bc19cb007872e0599a3127a3e7704411894f98a;
 0x2d6486b8e7b9549ea86cf044e8950ffa36974e842e1fef876561e1346c5a893a;
 0x2ea9d2e1b7d07c9a3895565840e25843c9debe589044f305c1b5872c74e5a49f;
 0x12e0dc4105acd8692b7cea0bd76da34aaeb8f6d00ecf84b4f062270413a8087a;
 0xda9c10656e6f42c3ce7c980a70c9d793db4df8307599a33a491f24b6368290f;
 0x2f3551c6a648387da629c96633d5cc99360d9b89aec23c18ac76af21b11a850;
 0x202de33a6fce9dfe8aeea34af1ed5c74093386c8a553d3a3da46e134731dde14;
 0x7372d41054dbc009e3e91f902d57a213f043575f3427e35768a5a52482b1b7c;
 0x2f7e35a4bbe9699949a819262943c97e8e938cd999cd911a9edbc716e2454fa;
 0x2a27b84a7422e29b8cc73bf54bf535b011606c819b4baa6824b6123036d73ff1;
 0x19527e9093b313d5d2638c863499839ff5d8e5f98e74b312fa0c63aff7161a3e;
 0x8571a6b8b730363299666231e3c49ed231d1e355d93894c8562ba033147f025;
 0x2c0f32778edfe932d912961c81d88e98d4fb64caea2cc2d4e3f213a5d2a1b9ed;
 0x2710a63e84f8bf3b15da09e69bc24c567f84a4577610b19cc58191b2b1453ea0;
 0x2d4b8440f168745ed84c3e393f75bdc0b0fb3f148e4ee77b525ebc258a953dd7;
 0x234901ff3ec65e0a4f629bf6e96eaf379aea7c808ca9ee79b6b796895917684f;
 0x28a529a627cfc689ba1bb3372072518c7720b450975339e87865c36be526e5e6;
 0x1a1af260473d83489a6a466ddc1855fdc6e83d73b5c5c0fed554af11c6cef5eb;
 0x2fd594dc14997e8e0123f3af16c9289d088264cc16a8119e8f02ab7270952924;
 0xd3564e44716de8c02d8f8278b0d2f819658234bc4db59147fa3a5dc23eec833;
 0x293e9ac448bada42377dd8b02d5ae5695e886e0f8e43f01b38266aada3cfaa0d;
 0x2186e961df0728bcd7b667d35e95f354cfb1ee1288aefb7e0b2381296daecdb8;
 0x1b4972ee03b2787a27219cdeab7acdb5dce44bf8368a0c43e1e3b8c8a7f49e74;
 0x1105ad26651d5ac52e817c32d86a3b10f05738fce996b2fa905ce1c3279522a;
 0x72b770a70dab242ac30d03f5d2477595cf521ba7c91478d72e45358569ef30c;
 0x1e399a42196a8061079e9d61ec97ff8c837195bb936206997f5a93021b70d275;
 0x24f50ccc3a68ab3e2cba453ec40a8796a3c59735dd3303bcfadb6218aefb7d6a;
 0x14fe92dc9227b42df23f8a5a0a7a2f50bc119f01dfe708b9118f75616714bd3c;
 0x24713d85951736c77b66941c007d170282271958c98fd42d6b12696a7065916f;
 0x5cf2ad05c75de38238f63258c8dfce0d1b698dede7feea9a97b263cce815ceb;
 0x2d62695c7008a11d0c874b40395a695fffaaea6e6bfce85ae1580dc48218aa26;
 0x19e47227e74d5563126770fa5ba61405ea6f348565c3aadad0830b3ef5d775a0;
 0x20e43ff580378bafe2074a6b2fd50c74594537f98565f2d65ed8c15e5ca1084a;
 0x264e4841309ac1aae92ddd9cb4d973e237406d50d2849c7091bf1c1bf5c1273e;
 0x1238beacedd4f53b35b578af1c30c077f4289680658fb26ae1b4c0b2f710e604;
 0xd90474c262aac1913f37459d4f2055dade903de9bc02fa5fc7c137cce05fe35;
 0xf5aaf4827d5f40e00235ebd1cd1b9f6ebf3388383e692573b95cae4f653ad82;
 0x2cdda4350f35334773cd823df37097ee967c28d62d0c45c34d0cee4008834893;
 0x1c0c8c2ebb6860e64dc46755a7e072795bc2c78832a618bb6a2d5d0911b7d768;
 0x269fa26069db1cf0cb705bc3584c0150b85642d4f243d5e68d7240b8e8c03276;
 0x9b443b0a7676575b9a6d3f003609fa7c7b6226341ac8389258881d994fa91c8;
 0x191b4697a8e295ab80f81b25743fe13f3fb6998e9131e99a86f22bd33e7bddbc;
 0xb488b6a875f238bc324f04288ad865c8577e8f906a971ad4bb9d91775645730;
 0x275928b25e503c9c95c01b18a5d30081bb0cd31c36cd172bde1db83287f5f5e6;
 0x1fde053dd87291d7e14f0f2e7b7461b49f60e4afc39cfdcde65d70f65c3b026f;
 0x29b2c386816e9d3f76100e8fb9543329ff88ac29199a181358dc231aa1dd3e0b;
 0x4987de3e3121811ec3c10421005e133fe1ce9c2aa7d7c54a26f425cd19767c5;
 0x19a23ba97426bfa81b757e35aa3559050628665eb496ed8732d409942fb6e16b;
 0x12333e97d1f0e3280b5e2f9d96561b2c04d001d2b393791a861fdc26c1b7f767;
 0x23e48a5b646d353895d06928a181d75ad25c95a7672f3a1f4917ca03baff3227;
 0x1b6bff423317d2c2721965972823ca2e93b8f2bb0a52245cedcd94587d596382;
 0x16af0f387b9ba94c0ba6d176df30701ff378b3524680aafda4f7c4df4b088b07;
 0x1bfad9c1a92234ed97c51ac7dc2d80f2e908c098b28bbe712cb75b92797a2103;
 0x29bb5064073e9a6aaec7bfd94d48fe2207d90ea8962530f388442ca4d95e6256;
 0x1cbe456ec3f8d8849e10fea36509acc3647edc3e765f4de7489264f5e34033e5;
 0x87a35062dbd735636f76cef6fab3b412749781f03b39b181495a62aae42424;
 0x1f1219145ff0bf15d9645e347879a7347f9a6a5f3dea9a9bf9495174d228bcc3;
 0x7f93fb41605d3cae1b42b92d527b2ce7cef14ad2b907702afa13d76ce02f88c;
 0xae3de8a6edd589ab62767e92f3c19efbf32115679d2629a5ebd26c1c7d34299;
 0x15b6688e877724b41ce08fb17695347b5eb8844423c71a98ebcc188c23888dcb;
 0x131cdc252f00cfe48cd6cb1b15344b6fec8b176c1ca5584d76d6f9f6ad26bb13;
 0x1bd570cf878b3dc1616ca32bf55e0b3fd898444d0e70d64909ec789ff11e8eed;
 0x1e5a54e71ef7b9eabf717c01dd99b7262c3b43d1d6960094b8e508d1e11f03cb;
 0x21c88de360b36a24fb641014feceacee94856233dfbccbdd1e9f0f35c9e7fccd;
 0x2ef387dc1012ae94898b8afc9aa54a3be1f91820b61ab86f45ecb3ae21e23ac3;
 0x283914da97f036349936af1157c536d9c2873fc3c1543afdbfc1c0c55cc6d5f4;
 0x276ad4f7ba33971e4db2292c7ff704d15a14246a6e7d76ea79f1189066dd42c0;
 0x24ca7fd6a2014d9821a624bf07950e8f64f5e6892d48e4a71cd4f63e9e2c63d8;
 0xfe8f370d24968de4dec0fae5919d8f4f666673ecae78bd7e22dc2276364afd5;
 0x2f0bbec7f6a255512df348122df4b91778775ace589d4657dcc1223aafbf2586;
 0x180732ee6d3ae2aa4866158f54f4d8b980013cc671d68c69a72d5955678703d1;
 0x5a0b0ba16b7b0631dbe2c92f9121284974a7033a69be30407bec6b153590703;
 0x2908a5a3204a9a144f6565e561bbfe9a4b664edaeba4106e1a57ac77290193db;
 0x18c860a5d2537a84944a1075e804c32ec66cb5979908a8ca8cd7f2d8a7029c0f;
 0x1ef80617b025bd54de5361dc2fb16cfb90c364e37f7a1f07ddb9ab292afc0e91;
 0x2ab495215ccdfda498510f6d5dbfdac1429464e7788a229feae561be3d62c2c5;
 0x251dc073bf23010a06bea25560e1be3ccb2c38e67d64eac680aea6c19952a7ec;
 0x2201c3662a59685a511e2555643567df50772e8c150bcec0943a8af3f106847;
 0x2bb9277b8021c5d354300da09101d24c72a842f97627a82065e5e67a22f465f9;
 0x14f5ee46878e605585b3ded3fa8b9b7fd62a2017b6d2f30ed61339cca435e348;
 0x114578668b59522fc7d794abcd2497baabd855f3fba503d5f5e0486047bf3fc4;
 0x20bc06a35fe07cd507d0dd0a9da6987f228017055096ee68cd33eab3773a1146;
 0x184801f655e82f8d32b94fb0612baa4ec983d1cd94cada67237670051d5fac5f;
 0x1404d5fc7a2e8940778158fb2d303364892147a64bfee54b25d3906ab5b3490f;
 0x251df4335e5164fcbbae73beb8cb57b809d71cb59d6e303db0560b0c1ee79e0f;
 0x9a45be49f35c4f987b58d749c78c69082486d3f8777eba4103eac7190faad57;
 0x2ede228b9b96b21dd5e1e6ea260a87f902c0051f1f203c788fb907df00e51177;
 0x100a3118e3248ac400e6aab0e4e6b10f07e96de582c2c923a99cd14e45d6f209;
 0x15872dba1f1047ac1faeac076b57513ad92ff71b6a6a2b32f27adce084894e10;
 0x1f68a35d81c05733a573076ccd7946a4039da22e42959520737e4a6843283fa9;
 0x2a165a1a2b018ab2fa4e581d7cb567d9b1515db27ea710af3683a8919e99a282;
 0x64ff94b98a0588aa924e943ca627fcbd2ef854c66f917ae526f719fb40c6759;
 0x1c8349f898cbf2d1fe6db936c53bd3564b673b72d673aaa39f9691e08283d5ef;
 0x2e4628a8655d2fc84a32f10e0a95e92d0576739c07050bcb0158f156db6e7c5a;
 0x68316de71fed80213380a8757b3a9d517e7ea1e4800a22c510755a4a1ec152;
 0x229e32cdf952fd49ddac8bacca9ec0a85b9f5f1e8b4ebbd995ec5b8289a54289;
 0x26c9af69ab4a7e08335cdfdf33ce102a14cfafb05ad000afa7383f01b9b5b892;
 0x14bc5140566915518f20d51498ca60f6e5e48678f97c1bb58e17af4db8f232d4;
 0x22fe06bbaccc5b18b4a8bf2cc8c47e351291bacee5c5226fbd0cdb308734339c;
 0x1dca1403773581144b083aa9b9768db5a81902626de0d81d80f53d75d247af04;
 0x4152e8ca329e892a4503613f3472ee94b7e3025a592d4625f420c45c56a1f52;
 0x13ce7edc9f1c7d2ed533026150f2bb6d261f379f1fbb48a8d556cc5ad7914e36;
 0x24f4fa36a48be01d0bbe57854d48399d81ec03c394fb2eec544a631f4e1cb1de;
 0x26e0659af8c838aacc352710f1433d9df9ccefc47bd5c487a0b3c29a01e559ec;
 0x222f80f3327ff730c8ca585c067b5ce946724707601b7a4a72476c4f73e7818d;
 0x19cd3a66216e859e433f64e4f9f3e2ad9c58d993ee168ceae5ebed3049ab2f87;
 0xd01aa823ee846c2cb695543c8499803101fc0ef222e3c2b44d8680e8a76188e;
 0x2e17901918cb6f4fad9ac0d387757aa77c7207924e177d0826ebcc45c76488b3;
 0x2e30cc49639069e2101cb479c7281e8715ce5f34d17c016430a9fa75bf484ad4;
 0x18694d18fe6758b36c38ac70d1344c6d2b70249db92a74e1404683b2f00dee5c;
 0x2597efc11329ee3e0c8bd40b4a78681738b4c52af4e55fb5be529996b56bffbc;
 0x3ead8cba0d24715aea9ff5443d25ee640893186e6ff6c045dfc91edbbd1c94;
 0x1e17e4583d68f0e1e7234d41915f2fa3c7b7c04cc2afaabd7f3bbe071cf1ca2c;
 0x2d05098ef2828d71e8758837f5c973ec97b7547bdfa1433a5527168ee9f9d5c0;
 0x9220ca57e2ddf5a1b2f2971627d1a74b7c1b837ade64a37e8e1f0d436051a7e;
 0x22ee5c6d36a980b7a428f8afc999eb09868adc52b4fccfdb68b3f5fba518e03f;
 0x1b70154b6e76cf9bcf4411203db1c19c77bc0ca8bef907ae8a4b4aac270842c1;
 0x1a2ad9a834a4d41bc0d5bac3b7e9453100f58c8605fd112ef6b7a25baa7dfb88;
 0x75aa06f43a273433cf8ee196e8577e5fa28844595b1f2b36f6473ffda38380d;
 0x70f884d5d0093ff75fb09ce934c8733008f994efa4f556520f11ee8bcedf82a;
 0x7d5a9301209de0fa56d9dee45f8480b12d33a73be02f078f7b9df6f9225ddf9;
 0x100dd4a2833b127fd800d28af04254a018853218ce565a8f615995a0f2466ea;
 0x164c79e2906202e73bcfb8105c5c10829397bcb0089ce03bafc5f0e627e0d836;
 0x29dec9bfa2a12f2fa1bc9158dc1d3d1ebad1d849fad58d34163d741923f8fdac;
 0x27d590c95d3dddcdd43e3c40f7579dde645f33c7b0ce03d55e07978096257f88;
 0xc32e71be02fa8302d8abcb8ab2c6a3dc4e962e75955401c1e6a66157dfb965c;
 0xcecd591ea4f3cfe0c7d3edf52f4f93d60a3126433bf9b9e47710d298c31e9d3;
 0x70627a0421fde844216f5f24789b3f54d44f1a06184aa81f75aa227335f264e;
 0x116f5232abcabac8a8b9f1a3ac86bfa97fe285811ec2cfd733f1206f449d1de6;
 0x2a8ecaecf1355850d03fa2f1a7904cf3a2ba7d3bae30aad7a35cfb4a6d7dbec1;
 0x252ee8a2dfbaab265c060600b3f6e19f24e491ddd37195211f95918d3d39b911;
 0x23ed5e73a4223df85afe948fdef2b6e0d3c120aa31e2f1b4c89054d5218258e8;
 0xddef510d2c7ba32e4331ddba93aa688bb9fb86173625037b86ba4c62a0600fe;
 0x2339cd5cb769acf2dafb5073bd988be15a65bf8ad06c38a82d38d317f0febe8d;
 0x26fb4a101c97c06acc999150483d44aa762b585c422bf8dcb37afbfdf076ab49;
 0x77d5874dba21d260cb02f280c5fdf78fb8ed9e0acada998ab5cb833b09d1858;
 0x22ddb2bebc8cd1c946f8522d7326702328511313b40b4a9e812b69aeb6113220;
 0x2e7c43c6222e6323f682c05c571f6aa62a3da64be2c3f381698e2c0ddadc93b5;
 0x19ee0e60fc2da7a295371c667ce850772acdbbfa0a9eab7a7c94a50c9c682de5;
 0x4d46d32c131ca79258ef2c525659b8138c0e199ce5968e57a82e780f1fa79b9;
 0x2ddd25bd37dea23386a030f4bcc1d4382635a6dc7ea3cf3889a5e8faca46bd82;
 0xbe3e9d472b8118ce3d01a92fc168de78549347b44526893312fd5ec3d2726ad;
 0x27fa8f235db616a5909a2f31896dc8de9594798707b477f343b48ff528e49b8e;
 0x17226412ab2fab6223eeda0b848333816a4dd6495e29ca47ce8b96f8c87aea21;
 0x8a2aca609e6344086eed8a710a35469bdce68646a435a6918277a21d03d4a8;
 0x27a10619eec3b5211b7ce9c318df7edfaecf7bc84098dc1c58232ac25093e35a;
 0x6def2df638eab9899865393563ec8bc81897fe0f1adc5c0499755f25497fc46;
 0xc86bd5b00467b98563b7ad1b362a058538a7faa110a438b9d0ec7be8c50c098;
 0x2237c3870ca51c0c9daf086524707a78be8845df471e4d4fb3f2e7f30d90214;
 0x2aef4c14a514a36ce1afa9f2c5f1ede8d00530e01e2a704d70494cfd3c2982cf;
 0xf425f81861ada856f01fcf0d5ef108acea281735a913d24eea75b55833b328f;
 0x1e562f2a3a83be1321eeaf564fb19f57aec9c66e6cc8fda18999d5baa0b4630f;
 0x627d8f4c1a8c8f8c5e1eb617598954aa814a756782e2cd85b79e8e1e748c705;
 0x15e5ad36f719cca83a41f67782388cca380c25992e5cd14c670fd3c317b0ea5b;
 0xcc8d138d0854f9b62697b7791da960be500e3529cdefd4f0b18d16c5e757ce2;
 0x17ff555b52d28be1b3c46c80946df519e9de247d2cf8d8175086f975d24c1e8b;
 0xfd5dd57c2cede876671978d2fd289aa0a02693252b74f7fdee8bd404e6c79e6;
 0x203144a77c72ea89fcaff39b141def7e93a1da1fb9e22b7d0c6733bd72f06f69;
 0x1979320524dfa45aa8ef35eebbcf6f621e1c855b5704d8bf755bed7daaf721d4;
 0x89b6683b1f849dbbab0f1092ca04880f8b894d7f8bbcb95cade4e736ea28998;
 0x2c2dd8e6610a0495784aa08bb9661fbe25c908396b5c3f2bd51109517fa28162;
 0x2b9627b579ec4019306886e1ff4003aeb3a33249be5cc6b56dc3607b17e42477;
 0x178f70a99501a6e05bf4ca79b2d6da47049f8c988936696519344ddd931174f5;
 0x224ffa0f9d0d57eb0c7d718e99cf3b6ba01b523548ea0ca23a3f156c04083abe;
 0xf2ee1e2be1ece2cd8aef1dbfc826997d304d88cdee555ef67a799759c39ed4;
 0x25757740ab14ca93745a76000e24328eb1a3d21d3cbed1930dd1ba2cbf7de236;
 0xfa6b963bc65bd930510b3ca6e1ae62c1b4675edf79ee79a7f280eae6496f16f;
 0xccb794ddf870bb92a9cba5f859fb3cc3f4eb1f1117d14c1caef37beced0e32d;
 0x123fc6d306f17fcd5a4309d4fe6e0cc1ca00fc23ea9447a7c6b68c7f6ba50005;
 0x22162170a1f845eb0aa1ee7baea486212a09814a9557bcb9fc72cf90f0a29961;
 0x13e385a5cd2fbda978dc7740e927ce8d422c9ee861c43036257242484e497e3a;
 0x13bebd80c2022724017d8e3eb84c269810cecf47f9f57e237bb4be69410a7803;
 0x13ed291502566a7033b4c4607245156a158a6fc84f4ba6f0246c1de057d8ff1c;
 0x2ffa06928536af91c7ac3b7714f204e26c541142742179217095a6e54f743247;
 0x2a6df655e926c4aa029749aaa7c9a40a10fd55a368624c148b5e528d4313183e;
 0x27d8531ec6121a3eca74db524323fc100db502a580b8a4cf8651f1bf6b9b0238;
 0x1ea104a44d82fbe1bc1ccfd4626cea0c06693422b3846b3a2b4aa12a3b0e747d;
 0x1d69a3852720a88758034d954dea602e5989114a4667251b0da5915412ac5ff4;
 0x1b8e232710f6c1ceeff9c1086d49cd8d2e647f6926da913cb5e10337d7f3d7e5;
 0x2d40d3f8e6f9e3aa6014c69630dbfdf3169f88067574ffc9210f7da599c4fb3d;
 0x24e1c2f60b1cd36101770cefc4334a8c02f00cc696df64f76df54a6fb6f0508b;
 0x2408f2eb6b1e958ccadbff81c9a44913ac0c9cb5cbcb4b4054017abb3db8c04d;
 0xe3c6ecd281ba2e16aa37dacd2abc38eb07c1353dad96e87d14e5ea33ff8ecde;
 0x248c7cfb7ba2e71819bfc755eb9e9a306cd0f6e3212e254090f0006d9ec543e8;
 0x267fdcdeecf69d799e79f68632217df51226d8ce39574d72b4ae4f39d21721ed;
 0x2bd9173ef276b7d4911ebf78dd15342eb261603c2c9afcf4ad831de9fa34bab9;
 0x1cc0af33d07e50b2adda3346723006250fabad8fa3ddb365c1d8582f4dc65f14;
 0x221f2bc4b7dce9195f9ca9ce8fdeaefcb05440c20dd9754bc59c11447caecebc;
 0x18ebd5c63b0bf20f45d238fd0cab5dec8dbf1996bcd1b3489f3c2499ecf92b07;
 0x2f338bc5a586f2774af3beb92aa92ce8e58a5efa19ddc891be47a5e77e9f5a4b;
 0x556b9c3784145eb4f2ff6e0c88f41989da5907f8c7118ae492939bfe4e9fb1e;
 0x1ec100367f65684538bc6956805ed37051238a3637e47022a3294cbde38b2284;
 0x1645a29dd4527ab91a4b798c7096e832073c8baac6e5db87e26c215bf448f84f;
 0x22a78abf7d5b362a743ed52ef2737bbbddd375e9b3bfb42409a95ad105ac9350;
 0x1a9921dead26c55aafb3ac9f3f35acb61a49d5f181e8036540830bb18686eb37;
 0xeb8645b0d2b8f0c3927d4643574c0b1a588272465d319e15fcc6c3262191aa9;
 0xe48af0cb275af55deb825a34ca48904a47c31b5592c4afa9077d60e5e7ea655;
 0x17dfbac5a26f06fff967cfef597a6da11b5bc894ee6b62e626a62e85a3ea4b66;
 0xdffbd016ffd2b795226a83edbdb3c5a6f78917d7fbdbbc1b3631027c866aaa1;
 0x2f948d5f70856b5f23a4338d244f6ba7e7ebfc750e16ebd1e2c2d13825094310;
 0x194c9f7615cbe3eaa0f885c59e420bb89dca60fe174ea321d80435301511713c;
 0x16e81a0540143cbbe662c7ae726051ec663d621562fb3701240cbfbb4b17b3cf;
 0x11ef0c2d88131f715e47e9a4953f789fec78decdbeed34bc8eaa42927ea6eee2;
 0x876e45a4f862901bfc620a55951802a1d1d5c3e1414308db7d548400f668535;
 0x2e78d35e1dd86776a4ddaee1192c055aa8676363bfcf3165317dcc98017e6c75;
 0x19f6e589ba384db3c36adae4bc034fb9a444da42164b6ef289009a2cd7d15a6e;
 0x9fed90b1f10f84f6739bdb1b4b508957acceadace687aa735dc9f6ab14404fe;
 0x55e35bbef7ce5ee7a3603222e09005dd5192adcd70dc33721714137221f4831;
 0x5e8dc359ee98d3bb6990fd928ecf056f9bb736e0d47cec22a96e7cac65a9828;
 0xc732297f8b0c272fac76944ee969930752a7bd3943c7b97e038bcd2315d290f;
 0x16703fb8b02c94ade315d5b62aa1bf7834de248310887dc13cfd13fb6c2a10ba;
 0x28715ac5265d7a812af4e39e43bf9ac80059635d01fd6fe40f3f1e059d7f7f4e;
 0x2f683b0027994e095e71eec8475730fe227b480a6aca67ab1593ce6f837bcaf8;
 0x854d9c3be72187a2f198590decd43943c5aa6140a858f21595b9a08da85b323;
 0x1e3d592b71a473c85b2104acc1d8db8cb9101a3cce55c66801a0d379497deadd;
 0x1eb27377cfa38a3967a71e697725c195bc1d7ce047e83d0e069dee8b95a9a70a;
 0x45b9fd1e0f115801232c7aaafb5e73bc2d657c47b122f4e3ea30a659bdd9be;
 0x27aefe3d1130e9394b61a804dfe2231d68295910dd39245f1e1de65a87dba6a;
 0x2e4c5fa1a42064e556fc50dd7fca7b48625e4c169415487d4df0482a9b1df4eb;
 0x5767cb28f1019a39627a19196a7e4672e82441be0b90523c7b9b9f74dd3315d;
 0x17e443e32ab352d209d3e038d1364b24eb3f945e99a6809502c5439c807fb4dd;
 0x17a0c0d83cead8ffb70978edec1bf3c4acef4a2cdcfd8c335bce42793513e43;
 0x28b749b2a9becb34665e38f3c49b767f20738a481a7a76a19bf1030008a252b3;
 0x1f5252eb629922c70f2fc1b5ec5ea0a0e0acee47da26c40436c3f1ffca690356;
 0x29324c40ee7bc85d33a056c3fa8f44d6a7724da53ccedb3e56cc26b73358aa0e;
 0x567e9bd8a2b947d75b376a9a1af17bf8bec6c9abede582054fb3ecf7860cde;
 0x1e96bab6ed6f45550f2621c0adad747c2fc9988485f6184355c3176d5c11e8d6;
 0x8d47dc23b1ff527992c9eddc91259a748f6cd7c1f61874a0836f599e995a399;
 0x22733cdd318150f40d89d1ac142f26750809a0b888c85743af671050cf6736a2;
 0x2168174bb9c45be2ee87441174a24fd41de6bff4a377803025864c5ca1927347;
 0xb48fdaba88524ef8d0495ba63e8713b65af4a9267b5d62083e7b8726043a1e0;
 0x18658643fcb63644520c0fa02dce232935a4ce8d7b733a9b17a866e50b3ec8a9;
 0x2fc94cda5238fc785871bca97960b299ed0df05f6c6b28a3834865fd4974bc21;
 0x1a54a91a89dd7e0ce87530303c12ef76244fcf42c38db35513d65c6d5994ab6f;
 0x15610d8d64ba02952f4170eaf42a27cfb2d13f04d4673537b72510c5c4c3da22;
 0x13597b4707657f437ee42087cf8b589042b277467d8a0436cf66ea44a6661212;
 0x2dbb95e5114e740028bc5edf58b2e9fc7e3871d3f16ad0c3845d5e961a87837f;
 0x2cb3a3e7ce16cad9596eab92d772f6b8afb43cb6492b2c363ec71e11f86c52f9;
 0x286e8b9468bd2d392dad5d90ef65d28dec27de7147ce50b8edffeca5d70020a4;
 0x166e762a73b519001d753737d7d908ef226237b077cb76ed9f6bbfcce9989317;
 0x1dc5bee6477d7e7879fa2f33ba9adce878a57fad3845e7c9eaf4be54ab844f61;
 0x1f16f7f1cd61d9563e064c86b508afec41d614abc7b34bb45174b40d3877155c;
 0x28df04cdd7f79cb06fbf044e631ab11fadf9691e4ea5f6209f8751af58c8eb15;
 0x18aa6490047ab52105dc1e60f448762461b7075d38a7c0b2ba95646526588fb6;
 0x76ab8143a290792147c6a6465c9a83bddf4f65388cae8357bc6bd9400ab99b;
 0x2616217a94f407053cef3b234cc11acbbd2e344b403bbd8a26f821bcb6f1f8de;
 0x2296862cb9a14424a34d3a11080d6ed5bfe1bc4e0301ec1cbd4e260d81675684;
 0x828428022a299903406314c159732bc0fda227a3e7a40a4834e513f3ef97c53;
 0x771ff9f397469dda6f20cf1841e702c1780a0719b3f590175b394f38279c77b;
 0xdc489dcf61aba1104925eb9439a4f44228d06dd4567fce1444965a749567975;
 0x104470f92923d3b9dafa39eabdf7eaa23b6ff11b2ebb64a63bdb912d43865fa1;
 0x14a490ce09c929505ad223e2f397186135aa6586b27cc9ccd4f78efbec993a6d;
 0x206893bb747ca2504461fb24a2f72eae4cf330835825fb8ac9563fed9a7853ea;
 0x3c2a738e753f35b068c6ac8171244c23fbd4f37c80ba508618c800acf626546;
 0x129edb7a013029be80efc7400212cd7af1308100d34a569ef3646b52cfb06e16;
 0x874b0edfee05d8cddac89e7b562f917c7ece1ec2e262f226f4d1524a1ddc158;
 0x10a0bab2786cda30537c696bb1ffaf898078841896f7be41cdf30ad2517b2aae;
 0xbab661c2a17fbe0221f435ba90520bced928364cac984e17a6c72a47e13fc2b;
 0x2042016e686c984057a28aa2ae13c981ad8dd02ac7d4663005e1380c54f843b2;
 0x1fc295ac71911a59a81d087f967f16a3a887739d7cee663fff5d6e0710cf4a42;
 0x5922697b04ae608cc3bb0d9d345cadeaf4fa291de888e9b1dd32c19cb1a8777;
 0x271b87d8b895c6e1d864b9cd030729e523bc90b469cee37b51144bb3b0e4b9db;
 0x24aa401343e4705f22900fee892cca269d0c0ffab8f55c21c674edb9d7bba552;
 0x1b07068cafe17b55b5e00f7037c9ac37ef0268d5d2b76d7271c617004f05922d;
 0x1e35bad319a036cc6a2094f2a1bf2d1984a2b74aaf3e5b13a6ee30c90097cb33;
 0x2ab91b9a85ce69e7bea68f4fb5b1fa0903945e039c4ddbe05eff2d5e754fc219;
 0x21e979fa3a2594d2365ec70b5b3e0ddc5edb8e28fa7ec307aab14b547858f666;
 0x187cffd76c5fb29795523ebe065c9c2115e73784ac6b15c596fdd68469d1ad0e;
 0x18d2ff882c52b396a8c068f88c3d23f9d11d9f91c0f7fde9ef6af2180a007392;
 0xa878a77de615e83c3d430f11f326b785c1ac114e599c24e5adc1d9fb91b31f3;
 0x286b9c6381700288bcc75d020ea09c45957a615576d7620a0b9af2609d39afcc;
 0x1c4e5ed7db96db52059ae2da709879d489a1ac5031c35ee1b6c422d9080c3f12;
 0x27141679bb9260a693b880784ff5fbc5d59457b96630e0a5c04912092a4d2abd;
 0x15e337c65fa58edb6a74fdbe7cdd1901b5d019ce7dd4144a8b49eba02bf085fe;
 0x8256792218c8227eca89f5114f1e7f091d88a557c69b2a956fd2dc90cae3631;
 0xc08d19af9c30a31acd3928ffb5a57de5e83367204ee67209ee7ed1bca5185da;
 0x1919839ad91604c370f237d2a0aa98efac29246f93c24a1bd0f9d2b60709b6fa;
 0x15bf65b02b92f40b9f0ea893ddbb0572f49375acb5958bf944c77ff6c3561a41;
 0x122e02f2e0169809b22def001acc797b202d335af7bd2cf032e3a7c75ef033b5;
 0x12075100dddb8098654e718605211f7f6a21f5176d380141fb39977305182469;
 0x2dadbbb8fecf5ccdf01f73d0cc60b15f1bbef018a63f50f68d00b72d8adf0878;
 0x14334ece05a631ab375e7cfe7b89fa0d8092ec0cee24c9fa3009edcd62ea8b71;
 0x9a51856d49ec654f7d44aca57b174365ba5479d8714a09f0f6de08b34e3942c;
 0x48e8feea9b828528dbc63cd3d811ed05ce9de018f4a4647ac1f685bb8f6715b;
 0x204ba6f18193f747ff10980957022ecaa8fa4c13e7fa4e89730a76253c9b07f6;
 0x79e1be1622edc5742e4f811ea2c0379bff4fa82b79fde5d0c9a0d174df130e;
 0x27e48eabb0ef3b22305ab720ee4c7f414e8d4dbf4360c81d1ffae4d7683f637a;
 0x15571becc7f5454e45ae416a6b3576274767215f659c91ba354372d999881d5a;
 0x2e6a4545ebf7c2e44af91ca7192eec4aedddbd2ac1df4f5101f7f8cdd316655e;
 0x2de19fcc78800027b1932cdf6f9e959208606cbf8a07524457492867f8f6bca5;
 0x2e1ca8efd1876e209fc2d62cb14446e8f3c4bdd53d6382ca86b113f3209d55f2;
 0x154b3f85eaed8b65718e733ca2ca7c8af03cf8f23befc4d7c6177ac00ebad368;
 0x29e58f39555d9dde7bac3df18d8eaeb2a5a50503860d20c5cd0ba2a2cf6373bd;
 0x32d32032e52103ad798fb36ef7c0681504cd2d86a12c7d937ff518e57b4c3f0;
 0x281de0191d30af73105e39dc174015d65dc7ff12d20888d02cec650e1a245a3a;
 0xf7e76af800ebab14281645d290607eabb062bf0afe1419133e1ffdcf70c808f;
 0x27ea405bdfc6557a4dd338a2bca9819547501f6f77a588a75c014d46283f75b3;
 0x570af543efefdfddab63fb05d31edcad395ac82381491a80c825c621c7ac22b;
 0x27a797e0014302478a413cede7a45cd894b0a229c8e89f56ebaec4c46692bfe;
 0x1dd0e283a8ef7d0f4966a517687fc53243554a8d3c7e41d91719b36bace81516;
 0x2006444695987560869df6dcde2673e5b73ee5bccbb43a05c2d8be6c59979242;
 0x271926392e5f1c94437afe2c2969bea4ff3f6d83ee71394008831d24bb1b6cb6;
 0x1b607ed2f130580d9a8c20ea26b33b478d6e1f00cc82f00176935a8b54cabf8e;
 0xb7a6e33808d217a9e55c23871cfdfe495c10d62b8b981784b0487e63df03e0a;
 0x28ac790d462bb345ab80cd1670403943599b79edef17cf70236ecb1ef872cbc9;
 0x2f8d745b1b4750fd2f932f7913095515c498be314210180c6c3077231226bb94;
 0x2a3ef20e60142f17d2f3b82eef6135079523956d8bc684092eecb7a7d56d71be;
 0x8119b14b83922e4b224697c2c6536cf772d067489d42672b988cb638c71a0f0;
 0x1a4bae6c9cf73ea22739a275bc722c8cc83d91e7ddfd5110614a52d84ce73205;
 0x1d659aebe4b37b888be3a7d7f23e362c250046c09d5326312d8d94cdb384d1be;
 0x28e2fb92bf6da4e6b96730479f170760564458d95f732aae2406af4c03969f8f;
 0x10f4ec3ad6f3ed3387729990456c9685786ede8e6e14b7c66311d47b8778aa68;
 0x2ad366d90419107866504d4d34346e0a3c595de6e0aa51c805272ae1bcddc2d8;
 0x2f1dc29a06c64c9e43d3379db0f2e8f0cd8f80351724d313ca02ad24c6dac81;
 0x20086a672c397e65cb37cfb64ddab08074f173f37d0e4a1747b7f020652da64e;
 0xef2861f4ec9ba5fec74ba22c0b7af9d458c3cd8f90c825c1f36110ca2ee9076].
(* poseidon_bn128_constants.rs:11181-11277 *)
Definition bn_m9 : list (list Z) := [[0x190f922d97c8a7dcf0a142a3be27749d1c64bc22f1c556aaa24925d158cac56;
 0x1f8d3a9d2d31ab32d9bdb6375170dbba89f6f8f74d16e4fd02f3675d5fe2baad;
 0x230c694139416f40422d713e13c056c45c3c631b346854523970eaea58a37df4;
 0x2063a461ad06315ae5992a53a14bb598367624afc2833ccbb83af92ca0f6a334;
 0xc574e628f84b6ba9d17b9d2bfd4747e06dd68cda2383d64ce365927098c046f;
 0x276428d88040a3e0f442424d2ffcb8d19becf3fb6ca02c1b5c61b5ddc53ceb90;
 0x24bdf6101b2f223174e869d6aecbe8ea5b04a14c38fdf1494393cc6fdb3e42a5;
 0x180fca184150c0e354b4b3a4a075824d4b68e8274943f4dd8b0c64eca25dc68e;
 0x10726dcff87299c8532159976607633f1bc2ad24453c1bab26b726b82d756ebb];
 [0x607cd8ff9b889773c9eb68b8a4366469d470cd7c6004106caae95c10c424419;
 0x2591580b73e7b5d5f34d9fdc0cf7fe3de7f6a18a255e4376fde3eb31dfa51d79;
 0x93cff12150aecb3465c4c99f044be85dcc1eba21d429132c2260dd3d12ea441;
 0x59116da88a081267dd888204fc6fb79046c3297ccb65f9e0fe0d50b4db44ec6;
 0x2c948497373514e7d9846dea9ddf5755337ddb661043d6c628cecb8f55173bd8;
 0x2c2729812be9ed432e75709133119cb0a14e1b6ea31c1279b7c3e495deaf108e;
 0x2280d6d4718f9f06b551a988408f0515070e455ed63377e910be087fb79bd191;
 0x1b1bba125505ae9675bcec7c9af579c5cc83533c9d555be398afa09cbf95d6a7;
 0x17013257716d3cbae28e1c272cb6aaa2844136049ffbca05ca201523032c64d4];
 [0x1da524cff60b64856dc1f5dde0ff62da7b182da26908f6ba6e590adebf91b40c;
 0x2bb4565893b6ffc5799139cdc151158749c2c65db48672abaf24c5b3813c0e2b;
 0x25081a00fc20ae366b1fe7ea6b09e62a51f6fd377f608368c12ba4e3bf89935f;
 0x1b43719cd10b60c5647c097d1fa84b8f3c12c9c475ade13b388c7ec47240be11;
 0x22dd201ecbab94a2ee393796fefcca63aa54d9a19ab9c7f20a0bedcfb9d191f2;
 0xb8e79838cd30707999c621621e77e69c0f433d543b79c668cf379b6623bac84;
 0x2082d5647658eae648936cefbedfad2cd0538572aa6122ca68ccced68f432f4;
 0x277bae2fc597a536adbe9c24bc8ee81731eddb574c6a5142c1c5a48c51f82e81;
 0x30354c9f29c920c05e99d7cc747510e76f7fa69a71594a290eae7293c5a48441];
 [0x22f33eaee3c481e65801b761a72832908f066fe21dab5fa5ec1d4c6e99dd6dfc;
 0x1c5ce77776893d48147444b9f6d66a4da29c95707de832756c739eab8e87658f;
 0x2ab8edd22fbe2a1cd3ce9a4212d0efb282ccac28af4d876fc946203070c920bd;
 0x26e49154acca24424d5f8d29f650f9824de82eb7887329cbc83a56ae01dee4a2;
 0xbadd77f516d4fa321d1099bc1e51909001591ad9919f08ce9718aeeb2bca4d6;
 0x23671c5d1fb556063a64b5f664340936dc5ffedd4bdbaa2e96205704da5864f5;
 0x20d7202ccde24901d6ce2d107e79e1fd78d6c9398ba7a4996f116adef14def3;
 0x1d86496995f14264e7a054cc8224900368775c3e5ac6b5f54285f4a73c2171ae;
 0x136961746d34fd196025173c4d79bf8b3d1d05291c584928d97258fd5fb4fb4e];
 [0x75f84e9c719bb8de8e61083290daff19aaa4337454e5ba804257787470f2f54;
 0x175505391c619b75530fa83e513184381e603d8449d1e070017ee8ec0a4d25f9;
 0x29c5ce97710c1578a0990d862cf881badf10e4f6bde629199e803cd1c426be4e;
 0x2caf86cff60521ccc5ec6e2e2c83b4707bb90f948644bfaa8f80b0afcd4cde10;
 0x24f92793d67638b4abfdf48ce3b62ab5d0e1b250dc274d746f2f7d0544185b62;
 0x2809dfe24c7fd7cd49b97b27150f4d38a340b60f0733fd4530cd4269b4811e4;
 0x26709688150ed035f959687edf7747ee8ee946b770173dbe50390ab8c08c5f9c;
 0x1e5ae4c295ad5a17e00f973f136f1230a6fb85637631b306d3705f80effac24a;
 0x2310e2337e4d53c1635da18a2722178d55af583591bcc317eba842df247deaa9];
 [0x2084be9a57e9adb80303a8dcaffd4bb77adb6815168b36a1d363b38425437135;
 0x6ed1d14dedf763a3065f27e7a46d7fbf20d2b4e86a0db86692a269767d577e3;
 0x1324544a54174cf7b3cd8ffc4b86320f2319d9b88c1779b89b1916018f3fb9b7;
 0x2e923ea46d492247e12e0a7dccf6620f5eea6629b7532b3af246809398859633;
 0xbbbbb87eccc91d5fb07b6c55088ca514d68ddd93cf31c8ed2d2cc7f23b22b;
 0x26010a3f5295bb4481310cbca5384a47af0f9905e4c76bf54b870ef0ffefa1c8;
 0x751a4a4af246255ce412c4bb47fa34a51b8628f3cd902077775c8fa488e7519;
 0x28d2351619ccc6fb31ad4206e2c064bf4d9b2292b28463e53e4771f10670ddbf;
 0x1815e4f7b40a7027878640a6cdc4b2854300cf6fd4953c2ac2c77625ef44ae04];
 [0xb303449f1bf4b92d2cbc26ab34b4215b6dd7af010747a705b2a6e3398882922;
 0x140cdda33bb7a79b2baa851df5ad459e7df569b9f2c3da542d3b8d5b76b356ce;
 0x1d18b25aac98b282e10b5a3a74ce5caa169a5c30bae52bba280ed517f3f82fef;
 0x1ec6c32f513b8f30c7aab42e7d91aecbe54aeb188a84f8ca46bd7e9741b9a389;
 0x89beeb21c346cb9bc182aa2b70f853f1a2258d56893ce5a948d9c645ecbc9bb;
 0x2790643a66038cce4a6488847d8d2da2eea84961f8134b1be36947f803527e67;
 0x159e25e00326a76f25c1143a5be6f53fa51ccf368d9974cc6d93cce8eb81d37c;
 0x2486b884370d49a003fd041e800f0a898ab61b5e947997461ee3284241f3baaa;
 0x111efc136a9dfe0ebcffae8943e679cc0fbf62fd0ce03b409fecd932a8281b10];
 [0xc099bc68243537203f97254f08dfb7efc09de8f96d72f3b3e0aaded45e18b4a;
 0x35e9ecc464cb431cc92c3356e8a98547e843ed1324c1e971179fd1ad9fd51a0;
 0x2f35e921dae87f1284c0c8ae737dbdc4936cbbb03a03a5918552fe565270a8d;
 0x23a72c27f4f5e6ea5325d5b368f98b40693b2db1e8ca3d096739753dc5678303;
 0xe07b1d22eed54fdf966ffdfbcebb653b5dac3b2a91f50272876efb17158be2c;
 0x5fa56d431d4bd09625a86d3623464dc90bd541ea41748f2026f65025ea9d2f2;
 0x2d6f3e0e98413d5d6a1101b245c9e711bb2e956e27a5870784fd5403b39867cc;
 0x213176bc1a04939fe7d6bc30691aabd6152ed24f309bff3939a0d91d54c67a66;
 0xa5a1148dad4562eab18162b3914b64d5753e9617a5154e93f7e43e6860687ea];
 [0x1c5fd9060d4e0d999264429a5004c165570bd1675b09f977708b1ca48e616388;
 0x129f06c930edd36fc2fb7044a6332751a2e3bcdbe756d883716cead6bc7063cb;
 0x14a5ce1603228d6e6fade57c1da536659ba46d1b25566f12c28debcbedc5b4f4;
 0x143617efcdbbc0d27a091f28039eba8abb39392e2a462850b1f9cd8532f5075f;
 0x2885f2d44be0ecff57d92a4384edb5bebfb585bb23eae2a2ea50806bab8b7bd7;
 0x4715db6d86b513d002589f1f9522f7de3b1a8bd702c167559ede97da2c0076d;
 0x88887966c079d2e689a8d6d7bd913e92d326959bada59b99a653feaadf6c467;
 0x12ded41f8047da3e6c22bfed3ec5bb52d027e560048db4c0f96ca9fa85e17bc3;
 0x1f47c67a4325672f17b8bd1ddbd80e4e9e6c62419a9c204cc7e8821892431aae]].
(* poseidon_bn128_constants_opt.rs:720-854 *)
Definition bn_C9 : list Z := [0x2088ce9534577bf38be7bc457f2756d558d66e0c07b9cc001a580bd42cda0e77;
 0x1b86e63908c4b12af43cec6810356c94d21c9e37d73dfff9742a58e0ec356be1;
 0x9ca022ba1142d170f755212e2edc9d0a4ace33e16825f540d5d50d5a021a169;
 0x277e69d47a133804241f6aebe9449be6e22c849c6d8ad8c938eaf613bc1aecd4;
 0x17b57ea03754e24ae0ef425aa2ad931aac9ba5457a18cec594545a235db6b269;
 0x11c740983395e0f4a026e2c7c939236375c9077755eb1a37a77d5a1fd74abac6;
 0x1cd85529010dd7e2fb7ea403515bab5727556a479c59b822efc5a81eb37bc5bd;
 0x2cb9354002cec4bcbfa985de34f43d702ced83d197aa374b5a1f96f87b12f292;
 0x1f7af98e08f6877923f27a3dad40c525ac52f56fbbd878506544f9acd61aa32d;
 0x1a0b807de55ef1263cb74d73f1c8bf3403bb3f1e03cc502a9e2b8d423688ec18;
 0x1fd59a493af01f538eaee9b1cbcb2cd1b799d6093f0159107344047c2158d90d;
 0x1d3fa4c04d54e5263e743a2fa010370098773853777b73c7c92af64eea079612;
 0x1dc892a8d006e9b99d597f449d0553ebb51b259319ab9d8b2d02ed9c6582c232;
 0x2a0537379dcab76d9308d2699e0e900109318a740c75b8ee1ba71120edbfe071;
 0x149d2cc892e7cbc1f4102493bb96b4a36928dcf62f7dba6d9e0d446f5ffd4fa1;
 0x1e49f2771b7510aea77ee000e757ac105699c62a33a418ebda572969037b5bc8;
 0x5649ffbf48a15d39385cb62912bf049e9706155ff3dd43f7ce0e4cb35c86c3d;
 0x2698b359bbb3686b626831d596fc5b5039f4af516bc683a289876271ed62897b;
 0xcd8c08efc5d2bc627ee727dac325af99b4f72ac70f61c890b0593eb03c8cd2;
 0x36a9a9ad327aa70232cfe6c78884ec23aea703814c701a1862789367b45b3f5;
 0x2b5899d038a234824746d697d38ff423459f7bd4015782f528a3705a6f2feb9f;
 0x2524bd7a1969744168f11aa03fa82da034edcd1c31141420b2309344d2741aef;
 0x89189570593679da35b668bd5b3542489bab1022dd790ca6a99c09ed0a79aca;
 0x6608970a49c0ea65f21a544c215ebd89b4023c387e8339ec7c9cb80b6b87ae4;
 0x283a6336d81e02e8dcfbd4be67fcd7f8b73cff4ce3f8a7f3451b26e81679309d;
 0x14536ea1bd43af4d7927054ecdc962563f6f396e372f35cae0e5218d62bff454;
 0x3036ae3f4cef8a4a0a324f409f290c172e5ec23a34f75d57233a04a055648e00;
 0x22262d9a1cb0b5941b3f193c381403425b83e6fd9e1b4d930183148e414db99d;
 0x1555e4726cf5d78d11b66f4969724e64be8dc3047d0953aa84be42c4a3ab4098;
 0x2a3e9e52ac1fa4915e262406c27cecf24b0411fa674ea5046ac44897629e8544;
 0x14d8abc9700624bfc54939ff64f75e0ad187662ddd0215e3cfff56a350371231;
 0x1e0eb685b561bdcc6cb793504a4c1b5056af33ddf6f5e93c72396f6e53eeaaa5;
 0x2e7e146d9111c11d9348ec2230270bf211b4325c2e878d09faedef98bcd10dbd;
 0x18c036ef9e573369755af33142bb856437f6498fb1162b8f8af4523c390b09b2;
 0x195ce383cf5b4e65acdb300d6e359320ea6bac8fa881456c72526b4513ee1d71;
 0xc12860b292d22e5520d416427e1ff80eeeeee47799b322e0580c2d45d60e6ac;
 0x2ff73b859f68c9b8eaa94078545f54dd1e9dfd74fdd762dd65f522af19ec3ffe;
 0x1205dc46155d9cc22a89e838ff1a462738d3ef1972a01864c72af0f342e524ff;
 0xfecb680ff19b124ce745b6f70fba1b91716e12f664fe93562d93700adf0bc45;
 0x234391b786f9498db2680c6e7aabf4b0ace0f0368e21eff94528d051128cbc6a;
 0x2937dad89e2bf12f95cce70dbe3ba4c2ee0184226387421bd18038894ceaedc9;
 0x22c7ab9a912c2aa92e2afd4749e70968322f7e5750ce6c697dcb34446102b85a;
 0x1bdd8241cc91cf091780328ea6a0ca6dae8c10c50796006d462455b90e7f600e;
 0x49e3eb4d3bdb8ea3fb6ec3dc065556eace18a719864184b36da835bf3e8de11;
 0x20a8611ee3a91a1513e11ae962ec82884ba24f32171939892a34ec6d4622a88b;
 0x27d281f482154b5c001ca383a1087bb1481782f2bb457fb32505ff63315ec376;
 0x530c5ee45b6b16abc8306ebbf102a1c0774f8618699278d5d3a99f42495a3f0;
 0x256f402ec1732288a2ae27f56a2fee2199bde67ca2917984e2a6c7f3952a8e32;
 0xed544bd301d33d4b9ef359de3bf01e61397f2f29911944c5d091ddbc518e146;
 0x1370ffbb023d66ee62ec3895f61de73212207ab83194bf6cb1d49d37bdd4f34d;
 0x2a46d5538a5a9bdaf47e44594f3092112e755cdde1a6c128568994a040e9a04e;
 0x1f3396d7db31c19111069135ef2d095c1aafbe2c76d7cc387944b2f137edba64;
 0x225f3203fed96b846724c146b3d3b351d6615ee5cb1df8390a02a715ee206f18;
 0xb405da3510e7abe759298137d4853f651e35b7660028d9ce680ef29db4c22b;
 0x162df9d9cf874a89630d906160abd114b09274c010636c440c3773b5f012374c;
 0x26349d07dbfe862f47393d354491dffd8ed56bcc1424d45dc3292669be8ce0d3;
 0x1a75a0ebd02bd60bf851e0cc564a07ca5145d4ecb970625acc7f225480e29903;
 0x22dc35316d34324dc4fc4812b24468a33b94bd1187fde4092670d789f8372ba0;
 0x1f260c2068ddd344bf8fd0d985ad999e0a2a0b345b5d4e15647c60a0019ddeb9;
 0x43098906f60ba8b964c3d33854bea3bfc728ebd374b871eb716e1bee8f6fa81;
 0x17fc06025f7d0132912f6cd189b75845e8a8ebe264a3561610ec2db4cb22f800;
 0x1853501b6a22237cf790f64d592e46b76bd78d7a6e11a86a5e964bfdf98b35f8;
 0x13f85a860c328d7fe96970fbb13dac19233067b186ddca81f7b805dc7e8d4de0;
 0x2553858a2dfdee2556d24923c609eb3bd92e58f1cab1c406317019df0bddfbc7;
 0x18db95df1ef5cac1f4d5e21dd81e4e7d4fbf98deef329bac3e4744b2f72cc2d;
 0x218cfa400a003da69ff396f9a2fb282d544a43697b68fc6baccccd9cf9933939;
 0x15b192afdaf7ccc461209127b95647cd661c37044642f0207cc9cc699ee8a3fa;
 0xfa2a193cc8addadf7766d712c7af10074bc8149460ee35b5c78d15cf527034e;
 0x6f3dd41dd4a94658628fa7cfc17eb024a59ceacd9ef0fc0617f275cd9dc0fc5;
 0x7a9cbf46611387ced1b18c4f371d582cd7b05a50caf7e230a3b5fc9e028bae2;
 0x135f98871577c5e638e56325377721fbcbd590d85e93ed310fc1c0c802dd06a0;
 0xe8f8ada4fffe0a6b9faff17f6a926f28ffc38d958ddf259ddf4090083bd66e;
 0x225df6aa9bc49e9b2f5c8dc81e15c91ec1064db201be633f1e5fce6bc5b9b6a0;
 0x171c3bf7f45ba571930991e63dc8f4d823ea1d885357a37f7825274e9b9e0d40;
 0x171207761f4d71c5d5fa62352b306da902f0259f4c0470bc82409144feb9acf3;
 0x26a8805900a6087f4d916c5f8b752ab3211023d730a1c5f745d9122fd9c19973;
 0x129433d6ab5a8f5443489c357b69bc0c27cac6ae3c24997e5728ffc76439d5b9;
 0x1c0c02bd9a4f7a36fc2ad938f9a742c0af5d7745f1f0ac5b664aa3e4057a6f18;
 0x165ff7309c19adfcc8ee6ddf752f94fa5c24bd0e3ebdbac72c1fb06aef56dfb0;
 0x26b387d2dcda5acfe48872f1c9077083043981a4d22ec361830489ccb49d384c;
 0x136f73b20066bf9bb629e14dc8524e6026c159059fdbf51160066ef7c416be4c;
 0x2ab4b86e7cde3982d2e88235c312d1413d85e69d3f5d51bff97f8521bd7c35b0;
 0x15ab3bf7cdd8944501d4f6e1fbf9bcc650c5b7a96860f75ce08f5299a560e3ca;
 0x63757b1ee01190b18aaa9078ce6c59b4ff979a43897f7ac41f667ac1300c522;
 0x7235d5c897327b9b2dea43a9c924d63adf0962c8024e9486b31c7f7dc93f93d;
 0xc793e095f24f97300294b90f9c734241509ae31ac0e13f9f1df46e0fe537f8c;
 0x16c461135e143c6fb08d9c33fe385b0c7a012bc208fa6671e4619534b3e73139;
 0x3695a3fcb6f3778dd4884dad62e4e86c750e28d14fb31cd59567e3aefd0fb71;
 0x17501f012f54c4f196aa31cbd91bb126c254f553e55d4ab844f4d4c689d1a1fb;
 0x20ff8c2701723ebe114d932d485fb4af9af641e52cab0d5390db4dc624295cd8;
 0x605d48243e21cfef1ed9130f5844a0c14c790624b93ec98930d250c1b410bbf;
 0xffa032ab9b633d34909bb748a498d1d76f82057973eccae9fcfac45f50ea6e6;
 0x202d96f16f6276129f835fccc83f52e4cc1a7d5f2ac32ae4363e9421f6704beb;
 0x97e3fd4d35bd1394cd482c2fe4bc3c02881e452adbf58858a24106a1cbf0ad6;
 0x277c2847ae8ca64446c9d04e2be45b786a4ffdc7dd1d27d6bc978db85ac85ac8;
 0x3410aa7a2038d75d33082a5fd6bd77d018578ad7fba9f7712e4f41e7d397e6f;
 0xff02f1d79d410c828dd44c6338c31048ced79c8aadbc45afe4559dabec02981;
 0x49e781f466e2561b92d45a40fb76025afb1732b39a48dbae1c5542272b1e126;
 0xa88c49a585914a1ad99805da9dec850fffb2bbda64f7b509516a6713b884286;
 0x45e7bc4beec7107b2edf2649f982863c6e106589588189eb0c9de4b0e039017;
 0x828aea263b9f5db239f9c49e36a2e8cdc8e348f58904138e089cfcb8470ae5b;
 0x253955f1058a3387b40981cdfb33b74623817a3894b51087d3f9a4b39d716a10;
 0x177c69bc3df7a463c4d26b065562461ef1caff9c92d3bb143ce2b29be13b2336;
 0x14d6068c39b97b9a103cb0d40e9a8bf3ef7a6c7bd1d622d7da57b7a22cb1dfab;
 0x25dd2b57b4799f6110366e0baea665aa42325019581b8901fcaf78864b51f107;
 0x305ec758fa6ebbe5ce50bb2f16ec00d0430133a0dfd4cd79c12d69f8cc0e8ec3;
 0x11ac0a8009ce27d3e2183e31dd0175f81284b37c9f6e714e82de746969c98865;
 0x1d109b8b68f442a09a062c5a663a0935a96a91219587efcf3e95f0aa293578e5;
 0xc7b0a104e403dadc80eef55d68fd56d56aeffc40bedad4f44b2ebe780d08ae1;
 0x1807654841ffb72e7b046942c0080d97f43191c6d2e78b70e69ff867015cfa78;
 0x1b63da1a99ed90f40b0292180dba78b6e09454b75bde64ac9e5ccaf2b2b64043;
 0xd7e5c4d321bc6d180104e6a134450b8a62034e98d72c9318c61176453c96d4;
 0x2e252a397bdf1b53547239e3c6e9bb5260c1905930644e22985f41eb6a226f4d;
 0xbe3e9b1a8abdb889375ae6082e14e37bdd21b8e2a675ea56626e9f4b9d57c81;
 0x161b52904a998f03ea62ae67b561f1d74804ce154f928c1e086731d68efb5213;
 0x852f56672fc06cbe726036617efd210b8025c85b96766e95925e17f08564aff;
 0x21c4e873d8d03af989f22dbe4fa0a6af2a8719d289707ae506b39518349b6cbf;
 0x1ac41a44314ee18b9f9d4fdca582a052c9b69c09309ae447404b3ba58104581e;
 0xee333ba934442e498cede6609a1828ffce94cf07fa7b14c1c991889ad1448d9;
 0x2996c68d007ea8d16c014fdb33190fa58ee5de793f07fe4413ee3a4fca43466f;
 0x23f678b22fec25ba357cc068eb259f114754a65477022abe24cd07507825fc17;
 0x1f6c82714288549da4646534547189349ec908aa2fa02729e979df6a5882855b;
 0x1f818e74b9c3a490b612926bfe89e7947168d343c78084a3bedf771216014354;
 0x206833435ec4988772ee1f0ebb9313319cb243705c1313de603fdf61a323ef04;
 0x171785b03104df15a632aaf4dc7cb7acf47934c72c96310f1342500805120d11;
 0x20b7363891cd3589efe83abb91d9f2e6c59b575b8d3ada6c6cc84faf06763db0;
 0x2d60609bc685d0925cdec6f78d731df0a040638a754da555b8bfe26536a325d;
 0x1a91979ab3ad3401872d210b3b41347d44312e5d58df0c1217881d544ba301ab;
 0x166546d364e42050f2c39d196dd4189ae824a570d39c02ae6a85d82b00419bfc;
 0x1ac2089f74aa7d61b7c44c57ebbb6751be4c8a22b2f82f13b513959bc2f200c9;
 0x908ca864a04bcf677dba3cd272c6a1770e7a9c6381eedbf9f0491b02800ff0e;
 0x24bc8a866d9b7bed9242ed6a482252db77e9d83ace606293193994aaa126e72f;
 0x17a33b4d4a0821176c406b479e38da80d26522fec0931f218c8e54e269b0ffac;
 0x12d6d179f18bf6c6c13661026c0fdcfee596af082545f3299e05a8a78bff2e28;
 0x15c7fb9fcf8f1a92cf0c677fe58b79065a5a502d778ac6967c022f6f31132405].
(* poseidon_bn128_constants_opt.rs:2540-2636 *)
Definition bn_M9 : list (list Z) := [[0x190f922d97c8a7dcf0a142a3be27749d1c64bc22f1c556aaa24925d158cac56;
 0x607cd8ff9b889773c9eb68b8a4366469d470cd7c6004106caae95c10c424419;
 0x1da524cff60b64856dc1f5dde0ff62da7b182da26908f6ba6e590adebf91b40c;
 0x22f33eaee3c481e65801b761a72832908f066fe21dab5fa5ec1d4c6e99dd6dfc;
 0x75f84e9c719bb8de8e61083290daff19aaa4337454e5ba804257787470f2f54;
 0x2084be9a57e9adb80303a8dcaffd4bb77adb6815168b36a1d363b38425437135;
 0xb303449f1bf4b92d2cbc26ab34b4215b6dd7af010747a705b2a6e3398882922;
 0xc099bc68243537203f97254f08dfb7efc09de8f96d72f3b3e0aaded45e18b4a;
 0x1c5fd9060d4e0d999264429a5004c165570bd1675b09f977708b1ca48e616388];
 [0x1f8d3a9d2d31ab32d9bdb6375170dbba89f6f8f74d16e4fd02f3675d5fe2baad;
 0x2591580b73e7b5d5f34d9fdc0cf7fe3de7f6a18a255e4376fde3eb31dfa51d79;
 0x2bb4565893b6ffc5799139cdc151158749c2c65db48672abaf24c5b3813c0e2b;
 0x1c5ce77776893d48147444b9f6d66a4da29c95707de832756c739eab8e87658f;
 0x175505391c619b75530fa83e513184381e603d8449d1e070017ee8ec0a4d25f9;
 0x6ed1d14dedf763a3065f27e7a46d7fbf20d2b4e86a0db86692a269767d577e3;
 0x140cdda33bb7a79b2baa851df5ad459e7df569b9f2c3da542d3b8d5b76b356ce;
 0x35e9ecc464cb431cc92c3356e8a98547e843ed1324c1e971179fd1ad9fd51a0;
 0x129f06c930edd36fc2fb7044a6332751a2e3bcdbe756d883716cead6bc7063cb];
 [0x230c694139416f40422d713e13c056c45c3c631b346854523970eaea58a37df4;
 0x93cff12150aecb3465c4c99f044be85dcc1eba21d429132c2260dd3d12ea441;
 0x25081a00fc20ae366b1fe7ea6b09e62a51f6fd377f608368c12ba4e3bf89935f;
 0x2ab8edd22fbe2a1cd3ce9a4212d0efb282ccac28af4d876fc946203070c920bd;
 0x29c5ce97710c1578a0990d862cf881badf10e4f6bde629199e803cd1c426be4e;
 0x1324544a54174cf7b3cd8ffc4b86320f2319d9b88c1779b89b1916018f3fb9b7;
 0x1d18b25aac98b282e10b5a3a74ce5caa169a5c30bae52bba280ed517f3f82fef;
 0x2f35e921dae87f1284c0c8ae737dbdc4936cbbb03a03a5918552fe565270a8d;
 0x14a5ce1603228d6e6fade57c1da536659ba46d1b25566f12c28debcbedc5b4f4];
 [0x2063a461ad06315ae5992a53a14bb598367624afc2833ccbb83af92ca0f6a334;
 0x59116da88a081267dd888204fc6fb79046c3297ccb65f9e0fe0d50b4db44ec6;
 0x1b43719cd10b60c5647c097d1fa84b8f3c12c9c475ade13b388c7ec47240be11;
 0x26e49154acca24424d5f8d29f650f9824de82eb7887329cbc83a56ae01dee4a2;
 0x2caf86cff60521ccc5ec6e2e2c83b4707bb90f948644bfaa8f80b0afcd4cde10;
 0x2e923ea46d492247e12e0a7dccf6620f5eea6629b7532b3af246809398859633;
 0x1ec6c32f513b8f30c7aab42e7d91aecbe54aeb188a84f8ca46bd7e9741b9a389;
 0x23a72c27f4f5e6ea5325d5b368f98b40693b2db1e8ca3d096739753dc5678303;
 0x143617efcdbbc0d27a091f28039eba8abb39392e2a462850b1f9cd8532f5075f];
 [0xc574e628f84b6ba9d17b9d2bfd4747e06dd68cda2383d64ce365927098c046f;
 0x2c948497373514e7d9846dea9ddf5755337ddb661043d6c628cecb8f55173bd8;
 0x22dd201ecbab94a2ee393796fefcca63aa54d9a19ab9c7f20a0bedcfb9d191f2;
 0xbadd77f516d4fa321d1099bc1e51909001591ad9919f08ce9718aeeb2bca4d6;
 0x24f92793d67638b4abfdf48ce3b62ab5d0e1b250dc274d746f2f7d0544185b62;
 0xbbbbb87eccc91d5fb07b6c55088ca514d68ddd93cf31c8ed2d2cc7f23b22b;
 0x89beeb21c346cb9bc182aa2b70f853f1a2258d56893ce5a948d9c645ecbc9bb;
 0xe07b1d22eed54fdf966ffdfbcebb653b5dac3b2a91f50272876efb17158be2c;
 0x2885f2d44be0ecff57d92a4384edb5bebfb585bb23eae2a2ea50806bab8b7bd7];
 [0x276428d88040a3e0f442424d2ffcb8d19becf3fb6ca02c1b5c61b5ddc53ceb90;
 0x2c2729812be9ed432e75709133119cb0a14e1b6ea31c1279b7c3e495deaf108e;
 0xb8e79838cd30707999c621621e77e69c0f433d543b79c668cf379b6623bac84;
 0x23671c5d1fb556063a64b5f664340936dc5ffedd4bdbaa2e96205704da5864f5;
 0x2809dfe24c7fd7cd49b97b27150f4d38a340b60f0733fd4530cd4269b4811e4;
 0x26010a3f5295bb4481310cbca5384a47af0f9905e4c76bf54b870ef0ffefa1c8;
 0x2790643a66038cce4a6488847d8d2da2eea84961f8134b1be36947f803527e67;
 0x5fa56d431d4bd09625a86d3623464dc90bd541ea41748f2026f65025ea9d2f2;
 0x4715db6d86b513d002589f1f9522f7de3b1a8bd702c167559ede97da2c0076d];
 [0x24bdf6101b2f223174e869d6aecbe8ea5b04a14c38fdf1494393cc6fdb3e42a5;
 0x2280d6d4718f9f06b551a988408f0515070e455ed63377e910be087fb79bd191;
 0x2082d5647658eae648936cefbedfad2cd0538572aa6122ca68ccced68f432f4;
 0x20d7202ccde24901d6ce2d107e79e1fd78d6c9398ba7a4996f116adef14def3;
 0x26709688150ed035f959687edf7747ee8ee946b770173dbe50390ab8c08c5f9c;
 0x751a4a4af246255ce412c4bb47fa34a51b8628f3cd902077775c8fa488e7519;
 0x159e25e00326a76f25c1143a5be6f53fa51ccf368d9974cc6d93cce8eb81d37c;
 0x2d6f3e0e98413d5d6a1101b245c9e711bb2e956e27a5870784fd5403b39867cc;
 0x88887966c079d2e689a8d6d7bd913e92d326959bada59b99a653feaadf6c467];
 [0x180fca184150c0e354b4b3a4a075824d4b68e8274943f4dd8b0c64eca25dc68e;
 0x1b1bba125505ae9675bcec7c9af579c5cc83533c9d555be398afa09cbf95d6a7;
 0x277bae2fc597a536adbe9c24bc8ee81731eddb574c6a5142c1c5a48c51f82e81;
 0x1d86496995f14264e7a054cc8224900368775c3e5ac6b5f54285f4a73c2171ae;
 0x1e5ae4c295ad5a17e00f973f136f1230a6fb85637631b306d3705f80effac24a;
 0x28d2351619ccc6fb31ad4206e2c064bf4d9b2292b28463e53e4771f10670ddbf;
 0x2486b884370d49a003fd041e800f0a898ab61b5e947997461ee3284241f3baaa;
 0x213176bc1a04939fe7d6bc30691aabd6152ed24f309bff3939a0d91d54c67a66;
 0x12ded41f8047da3e6c22bfed3ec5bb52d027e560048db4c0f96ca9fa85e17bc3];
 [0x10726dcff87299c8532159976607633f1bc2ad24453c1bab26b726b82d756ebb;
 0x17013257716d3cbae28e1c272cb6aaa2844136049ffbca05ca201523032c64d4;
 0x30354c9f29c920c05e99d7cc747510e76f7fa69a71594a290eae7293c5a48441;
 0x136961746d34fd196025173c4d79bf8b3d1d05291c584928d97258fd5fb4fb4e;
 0x2310e2337e4d53c1635da18a2722178d55af583591bcc317eba842df247deaa9;
 0x1815e4f7b40a7027878640a6cdc4b2854300cf6fd4953c2ac2c77625ef44ae04;
 0x111efc136a9dfe0ebcffae8943e679cc0fbf62fd0ce03b409fecd932a8281b10;
 0xa5a1148dad4562eab18162b3914b64d5753e9617a5154e93f7e43e6860687ea;
 0x1f47c67a4325672f17b8bd1ddbd80e4e9e6c62419a9c204cc7e8821892431aae]].
(* poseidon_bn128_constants_opt.rs:4662-4758 *)
Definition bn_P9 : list (list Z) := [[0x190f922d97c8a7dcf0a142a3be27749d1c64bc22f1c556aaa24925d158cac56;
 0x7341fdd8b6d7c94a710e78e47ae71d8a2d2c45bf48dcd6fe346d2f9263adce;
 0x1c4350bba48cff51ab2e0c56301b9d3b289a6fc4744b61fb90dd5bec31107ebf;
 0xc6c426215bd132ce2efae38e5bcd7cbda5cbbff829320f99be9dbda88fa8a3d;
 0x2810b0317abd6345a234fbe4661070c9bbd1712c64d04bc8430847e6a5435a22;
 0x16ccf6000486cf0ee9eb858de4de15afda028275ae86398b37a27f1586257f4d;
 0x1756383b6b2b1db75e494e291804c5ad7d947d6c79dfbc5e72009f11b69c3503;
 0x55fe8568018f82fd47de970828d3b5f30fa7f671670bf1b615f8ab4b5df6c4b;
 0x21b8cb5fcab5ac1e4a8e968e95a134731f85c9fb488d200998c1152f49d3c599];
 [0x1f8d3a9d2d31ab32d9bdb6375170dbba89f6f8f74d16e4fd02f3675d5fe2baad;
 0x3d8602794854484bae8cefc996d566594d166c98e8dbb73e70c0ee829da35d6;
 0x1c6b76e0d60e628fd7ca0d7d60de7382c8c7ffdabefcce98d45a1042b4330121;
 0x2deecde3659cb16fae536b2a1d81ddc50da450c1e96c100a58157b0b2707ae8c;
 0x1ecce2c394a577ba99982bf4035574776ae9fbf51aa4b218a363eb0bd1b743b3;
 0xb754798119ccd26f34de2ad1caefa4fc586ec4d6bcad8788a831331802bebe4;
 0xf246352b2864232a8afd890b5a5c1114127ff9e80e539b5d922b3d53b4c2cb6;
 0x1d6fb6b7c89bb84d5f7fa77fcc40ae0bdb914388f6578747f62f388344139ce6;
 0x1aab4fcdeeec99f73a94f5e8503b377394eeea13c9c345d177c7b97923b1014d];
 [0x230c694139416f40422d713e13c056c45c3c631b346854523970eaea58a37df4;
 0x20151c663660a16fc26c7452d683b1ae0a4bfe25e01e2d2ff682d6f8c5ad91fd;
 0x22d746e18a8eb6059d6913f3d2219fe1d1abfcb21936bf4462f3deabb86ca232;
 0x12bf39e8f879b7dfefaa4be7d615736957975d6b386c0cc89bb81a1b381f05dc;
 0xd639e4276aa71f97d6d061929e08d78b690054d7933907c91989891d7e04496;
 0x22d621427b2b65407fda26214625aa8cdaab5e27bf99cb8f8aef492030fd40e6;
 0x1f9ed3d81ff1494a3e555e532cec14085a7d2897ca721cfb41627fd387d4c6ee;
 0x1202c35b5378961b68f410413270c6c5eb4861f5f016891a9d3101da67f24c24;
 0x1fc69a3e806ab5007fb930b1c0e8837529f3c18357d74533f14c2152147b6a88];
 [0x2063a461ad06315ae5992a53a14bb598367624afc2833ccbb83af92ca0f6a334;
 0x14be2c9eea6708b8055784ff7a6eaef5f2423ecd3c987507edb4d57f42263c8a;
 0x1c94e3008e7fb1ccf9b36a3b272b4ebf56872e9d3ad09fc7fec8b73f3edc8dbd;
 0x19c33a1bef2695e72cd132a78c4893d762540fa2eb33c56a7e4b6f88a15ffdf1;
 0x129cda4d6b758aae7d636a11364f08165187bfb7cffdf51c90e7f6feeaa44d7;
 0x14fd9137c30861213d9081982e9c1e3627180371bf7bdde642ce8212b70a5ad1;
 0x1835c38dfb0f16b1ec8a341397cfb66317dd543c48852d8ea875827e2d5f68ad;
 0x70a63f4db1f63477a7245d0577d38f8ecbbd9fd8a253adf5e36c86f285598bc;
 0x1c4546e0f6a7ec769233d0ec55edb3cfbe528b846ed015e41d063b9dd42bf1ff];
 [0xc574e628f84b6ba9d17b9d2bfd4747e06dd68cda2383d64ce365927098c046f;
 0x21e114b50d11303e7d5e39d69abc346d8c062b3bc70b5a88e0d04c104c89e576;
 0x15c4bb533ce05422d3201cd04a12d976dd8d4b41ffb77dbc5f58904d9fee034f;
 0x14f45f4497c4a67c90f50bef58ae132c54459facfda9a6afd38dd06113bd09cd;
 0x154093b24b8ae3e4c7ecb11ce7f6d10326366c410153cec3543b8f8c696f5fe5;
 0x80ef3bf4cf0ee1d45e6e64fb415c76bb901b1ae802c7ddc2f8fcf9a7c4a8f91;
 0x1228c23f9d6c7b75373a17d421f64b589d7f486511f846b19d5b5a7a4ae888dd;
 0x7d4d3ae7019c26ac7038b866eb5f0b9913b54315d879065236c20ed87c3f2fc;
 0x1df9042167db948e9c137df365881a2137baa8afdcc75f9985d2e2a54ff2808];
 [0x276428d88040a3e0f442424d2ffcb8d19becf3fb6ca02c1b5c61b5ddc53ceb90;
 0x2d764f3f9ddefa066b449acde74eb4270b819cee10a4125abeb091cdca204756;
 0x106913bc4e38bb6868247a3ddb23f7ac12b78d688df4cb4cce0e2a0027317fcb;
 0x2968de39216f3f05107f5715ca891c8cc9a238893d7c75e8684813f9b8f489f7;
 0x20f194b853c3b9aef7a751d3922d17428d595a02f6e9562f568e2cf07c928ae0;
 0x30593e502ac9b6856131ba8d187dfe8d53ad20d4ce7a3b8d89ed228c91045401;
 0x2dadaf44fe7fca4988d5777f9324ab2aa8606dd3c4ab4cec318e0dfa9d02d76;
 0x2b30b0b25fc57a37cb46759047e4c1906a2d64b1da6bc8048d683a3aae105814;
 0x2af620d499b90b1b8bdfbfed437d5c71ffe5112b22d538a33c9511cfe434cfbe];
 [0x24bdf6101b2f223174e869d6aecbe8ea5b04a14c38fdf1494393cc6fdb3e42a5;
 0x1a8803986af5a84f9aeab49f048c67ee6ffb4689ef31cb51eff59977d250c4c9;
 0x2c95ea22f6df6c0975156b08f16516ca905a828aaa2fae35c5465bc99ebd0b07;
 0x17aa91194ea3c39030e17603d9b8bb80fdfd271fc603180bf0ec0b49206a76b;
 0xf6884885a376b75b81ed233294372cf65cadae30ff9a657ab93592ceb935c95;
 0x16a7398598ffc414f79d6d0dcc11eb3830bc6b97917ae1d9c0486fc6a162546d;
 0x259a2acc8e87e4a08a384199ee3bdc03df7a3a1b07c83f49fff07b4da49e4ee0;
 0x19cfa837f30749fbd33925eabe3b222452dc4f4569c826e602f2397007c0a858;
 0x22be9a5ad9f369512913ab2213536ef1ea927d91f42c69c35be9071d3208dd5a];
 [0x180fca184150c0e354b4b3a4a075824d4b68e8274943f4dd8b0c64eca25dc68e;
 0x1540dc30a1b9aedaf029e5ee97b63a63fa1a47a7c59304e2bd1fe7947ce6774b;
 0x302fbf64fe705ee3a34e33211937a3cb487838f3a697e0f77c173999486876b4;
 0x202f3f28f786f3047f7030428878b673a3152c0500874263b99f2a3f3652eefa;
 0x24145768e616bdf16b3099e09e9e56f114c3ee6fa6e49513c2c4f2b3d0002b54;
 0x80ecb13362f44510286df98f696ad51beb124014f31fc8cbd9d2dadfede5e55;
 0x10a2dd7c6bdcffcaf5b00340731e2da029f81dea7271c8c19825060cbe5db6db;
 0x17bb125cabad9ea535325629cbca4d37e5f30a3bc3c7f12d1aa1b63326974fe6;
 0x1f5576505ab6cf76adb88b8a85e1bff7d1ccb35691118d4180034fef90d2a873];
 [0x10726dcff87299c8532159976607633f1bc2ad24453c1bab26b726b82d756ebb;
 0xf08d47f49171fd7d603461458053fb30596012a345aca5e6c8d307c5ef68130;
 0x1e1e54bb56826529a37fb6b7bfd6af40dc9da70e6f6bdf7fc89787a7a2ed0785;
 0x275c0ac30445ca28c7836765c9877e439f0b1308e5b8b5bc30be95808c9b7c03;
 0x1d3ecd8624f2fbc7aee4dbeb91ff442a018b9a60b23d7e607ea9eb2f6ab6c239;
 0x237522466e8ad65c715717c5273d65815a10185498c9e71b48fb441d90b5e3e6;
 0x1f23b760586a694ffd7cba2757f935ade52b1b3593968ada9e0268cd71f6ed64;
 0x36083127b4a9a1671954c4ec341dab8d8419322c722061075861b41df631a9;
 0x236a813f6235546014ac3a47d20bd75b4b6357e043e1fba18a05ac59a9aded9b]].
(* poseidon_bn128_constants_opt.rs:10334-11404 *)
Definition bn_S9 : list Z := [0x190f922d97c8a7dcf0a142a3be27749d1c64bc22f1c556aaa24925d158cac56;
 0x152fa675f337216339a9274b97b08d74eba0f31110688589baac5df73d06ba99;
 0xa60560c145b77121171f32dc6d2fa22fb894749d2686475001e0b4563ddf68e;
 0x2402bc21cbfc23a80116e7535240403b3e7ada326d3f5f28e7071680d1b57df1;
 0x26770c5cda1a14d4003cb55ac927d68a843b0a81acbdf4d1871a66201e3378e8;
 0x4ef6e3423ecb4bd4137b2b7fe78100b84a1ff459cd0a1f7212668bb96ddf0fd;
 0x16c6d4fe10c08c64f2bb14fc6d8d650b05c56fc689a93d0c4c0a79abfcf96887;
 0x1069cff9be3245f60606f94c1f214a3ac43d2249e725dc57d45716d06d905ff2;
 0xaca974e63942bfe230694165a4f72d184d4b7fb8a1674a70cb19cfd61329f13;
 0x15ea665435c28d287bdfd4978bd127392ccd486c9afa99454e9561fa992040b7;
 0x2545f2cb24c7a7c7af6beac75e34deeea9d532c0308187f7bd3b47b133a744fb;
 0x29b34fa5653b3ac5f3eedd790c7b94be1abf24beeb24ee50a34ee12159e94b15;
 0x3d5d55635085b4d05b57f78094a130400e4b60548da9cf59b90baab8e664235;
 0x2b4768592e18dee0d620b4bb3ec1f0892390a9177108346f9fc611e1cf592dc6;
 0x198e90e2b6f066f99bdbb201258054e8758dafdd397a4044af7fe73ebd0b05bc;
 0x209c25806fd4006da67b80c5f7a3fb03990dcfe087375143a7a09cc99aef143d;
 0x125cff70ce16a10ff53be8b26683420c895d366fa9d3763f14d376cbad453b79;
 0x190f922d97c8a7dcf0a142a3be27749d1c64bc22f1c556aaa24925d158cac56;
 0x2fcc1e873c2460c19aa8ea31876a63c06b6b16c56bf45ea23b2979351661c066;
 0x265596228bc6c434d211a6340c4a331df2be3b1e433aee26875876ab83840e3b;
 0x13cd5d84d4458fdf99666b4f567ee9bc2663223fea98383d29668084a67efa07;
 0xe4546898234e2c9981d06fbe84630d92d6854979472695a2aed5aa1c2fc018d;
 0x15ead9f1be93476ca2a93c83125918403b835eb9547d3ce31856d119ae8df0fb;
 0x2209a03017696e3a73afcb978c53731ae3186f4ba315ed5dc8ed6578b3d9e428;
 0x5b358d46bbf09ffb07f06af770b4c3f695e35af5f32f449a912310c69165652;
 0xd4ec14ac84189f1e114ad899c7dff8da5000fb3726ba88b6ed828451e9a4027;
 0x212a27391f1accc7e7e01e05868e41a62a2076efdc6ee94f26c30e5eb5c63359;
 0x1cf3fedf016306b0bbe65fda50235bc16cbcb1559c3f34ea6ee752f4b70b4848;
 0x52d3e0d566bd58d8097a8d1389d1caf33a2f2662de98f06518670773f74215e;
 0x2852bb73795f54c6adc9c635d5e70b03dcd03cc1229046fe2173c31b10efec53;
 0x23b69fe902f42c3489061de846512d346ad54cbde1d54984e26b551b29cfdd89;
 0x8a501e4d110e059ea6a0621d18bd4346af275aaebef1f402449c9f675feaab6;
 0x17f6697583d43520562d008293a70980e2c6564131faab56fd71c285392f5bc4;
 0x1b7e8e80739ab54fb01d2637963a91622ba49401fd5b961e892f00107781788c;
 0x190f922d97c8a7dcf0a142a3be27749d1c64bc22f1c556aaa24925d158cac56;
 0x1cad07b82878b8c153b0278fbb2e90973327826a09fe720d37166bba7c53acea;
 0x988724d5f424785949062a55133a433e27d8c89a7ec78016db5f064cf786948;
 0x2d81921df5457361416733155b8135b53f6410a41170670e3fc8204a0bec2d59;
 0x131cf6530e31b3541b8312eae98495b9b5435a8d32d35e5247c53f3170a58110;
 0x26ca4df270856d7d89521b850e376f46c84685eb832ff0abc83be2e46d008692;
 0x148832d14674b5bd61f45b882d08ce10b65eeda4a8d90caeda39210526a2930e;
 0x19395b170131e4b969e01d8bcd1a6fd6311b3375c0dbd1e31b879fa6835b9dcc;
 0x2617b1f4ad2fdf615bbf88b4efad44b6a7cd5ec6e2c469a94471d5a3add577bc;
 0xe0507aca633caa740518c6ed6ff9ca084bb59a7d0d97decf2530fb6ae3cf24c;
 0x176ed52c8a9f3f7bef3e084c2e5235496a2177f3418364c3eda28fea7f2a6624;
 0x1b1ddd3ed3c82536d4e2cc47820f37b772335bf4530356e590c69938c1ad9eb5;
 0x13c8300e2bc52c8d4c12f2cd9442cdbad38235a1e34541b42a274be0146455ce;
 0x2f5239bdf0e8f441fc01fe081832618bf1b9628cc80ef508dcd4273420cad1f2;
 0x21a41e1e2c6e4922de2cb723d64cbb9496216429a3a5a3c0c6c0019bbbdda93;
 0x3825cc9ed4f752a3a61be70f3f2bae0a22416870a8f692206aecf4570b4d751;
 0x16e3f668cb7ed8c2bd6cb4687d11dfbd02a8265f671cb58a7bb33a03a5238a1;
 0x190f922d97c8a7dcf0a142a3be27749d1c64bc22f1c556aaa24925d158cac56;
 0xd94596be2cb2587e41dd5ac38707f4a718dda9076b74a2567949a627bcca82e;
 0xda56e7fef653a7528ebcb12a7a01082f7e23054bbf948da64bf2ec2452d098b;
 0x22ed449e9752660719b8d34f4962772d7c7b08e4882442044c73a8aadab72c4a;
 0xca9d3e4986304f7ff2894c105218dab722390273c42c427c4dae8f29d66ca5f;
 0x10b01235bf874a5b2e184a8410ab01107cbf0648040ed6633d179509f5041191;
 0x126206165d8d964565d3220cbc84cdec26a7643c68f7cc42ac60d1f8618a6200;
 0x4878d524f362da3e3aa6dd357f0bb7d5615f26cb758747cdb30490707218854;
 0x21127103c61b8936aa157eb73855ef46d5b01587aa8a199478424f3c84d9adcd;
 0x15d5439ab67e845a1f55af2ced4e06ce2d577a29fe250f1e8116500d11681999;
 0x16a7318212f1751abe1b5c422ff830f1892dfd76737c7b49433e7877358e2db9;
 0x245579de75e5089b4f5f0de11d5b88bc5e395ff9a0747a2d33b8cb3e3394aa91;
 0x2ee3d749e038889f77c0ddc80bb7cd55df093664716a75f0274b1955a8712a06;
 0x277b64ed9137d7914f9445969c33db2f0db95938df3cdad46e6c8d4ac996796d;
 0x28c9181f359dfa1ecfe51ec8331b999c4be610300576e07d8461d468672e9571;
 0x18a1ec6f905a49044a4920d0a4a1f74a907db755d1f06d2d75551c6e9b5bb520;
 0x269587fc49db8b933a31bc6678b4087a12ff762c1a19c3699e0703a39f822906;
 0x190f922d97c8a7dcf0a142a3be27749d1c64bc22f1c556aaa24925d158cac56;
 0x1c423fef62d7ed3b20636135bed12f56c33b6ed3866b4deef95935b4fdb3fcc7;
 0x2c39e9c9ffd3f1acdc23821afad680c199de68c72500ba9affa091fc35d8b230;
 0x200be427ad5d644255178ffba022a54e5ba811aa0a0cdba615991897d312933d;
 0x5bc3aef5509b9df5380dc3ff1806ab689428626a44293af5a2bc33dfd98541d;
 0x19d3a7be7f42755c49327c0865f7df015df793d73c5a036f3beadf16022d1bc7;
 0x1fce5fb51256a4df3e994252d479c8006547bfa2649b9fcbac1e77699f31e917;
 0x24d5b2801c808c74305280fec1d16f0a2185f4f7ea2709627454797e1d694aa9;
 0x1b4a744a7602f165651e06044235910295d5be42f5e5cb902cf1bd0a449f44cb;
 0x221aa0d3a117f313e2a2a20c6927618baff0fc77188801b96188ad8518b419ee;
 0x2cff615d12e087e7d90119fc9c184c7903abe446e206a02d1ade996431e0f282;
 0xcbc5ef09419a755b598b1517a196b2ba15521c55e4b940b410e647a57713310;
 0x243e638c46a410bef0335b65a5e2dfaef63e3030d9c20894d43dd580fb36aeb6;
 0x11ae740f93b3cbb1262d1a6232a4d8c32a9b4e2fcce71620dfcb541a6bf3083e;
 0x14ee58652277e60cf9d5c2690dc83b833c66db0f8a3524d9d73b4b78846b145;
 0x1bda443673db00ba4dbbe09d15420b772ee22d921a43d236368285d42bced6d7;
 0x2de86a4384d67c5e44837bf469091304ab5e77d2eea4421edf64ba3321a12718;
 0x190f922d97c8a7dcf0a142a3be27749d1c64bc22f1c556aaa24925d158cac56;
 0x1b917b840ef31eb7e0a628bc85f7c2c200daa2c53ed4ba7f6a9e1b24b1ddea35;
 0xc54f4f9747bf23552798112aec65d4e9ea425c25e4ffbbfbbc3de49009f8858;
 0x2ebdec8a92cdfa3d690a4419d1928b4b4d93d5f911521cf06140340913462731;
 0x1b74699cc5eb637115960b5f70998323c9c3db826844682cfb8ea43c375673ae;
 0xe09a75d4dbde40d4e18b88f63acf3ab1ce50c80252a3012152ac38fbbdaa61a;
 0xf7c0e52c6acfe356ef5c75f08788edd3e75cbfb209436f7a5d0c3ac9b250c5b;
 0x250fab500f159fe411838e3ac03d2587f7e358cb6c5847df2b427a6c074df62a;
 0xdcc8241d56d88000a8b7aa90f6af3a4fdffa80db18bf815ff7a0b02032b2aea;
 0x1a34b7894985f4d6b216af15dedc398d4ba39351bd325651972de2a64fd810f4;
 0x277bdbfc7a614412262af936a8be70b47e7e5d31537d85ecf155ac3ee482b920;
 0xd3a2e73d19987bba8d72256028ea7052faa7e99aca09d9a08bf0035e402c03f;
 0x1c00718f76c7b7bb506c09b6e1596c137117668022fcab596984aff97c858155;
 0xdbd5f1c327ae5b775eecb71009a20720365c0e482fde75e1bc1371e5c11fcb3;
 0x867c2b4fea85a4cab294824e2276bda8a7406fbcd5da41b6e0fdd8b69a2f1d7;
 0x1d393af52503c0a9aff9fc1da41662cf9a76ad7d3240890bd456a47731a35b4d;
 0xc4efef6ca45633d4ece8715dbdf4b9abe4121a608606d971845e47c70aa5db4;
 0x190f922d97c8a7dcf0a142a3be27749d1c64bc22f1c556aaa24925d158cac56;
 0x280e2e4d9836fd6f43a90fa68a9220a0e5679ad45fb21c8e396dd7c267e5d3a9;
 0x50dcf95a7b3b535a88ef70504cc8a444e78f8b5ef48a3486112408d1aab3b87;
 0x1ded90abdac843e977abebc17ed03d58eacc961cc82dff032df1e60371acbd1b;
 0xc83114862faa4b053ecd3df00bc7bb610d8f777319da6695211696cacc7c2da;
 0x2f38535fca1d0fcb6656a7bc9f8d6fb0951cac281e7204191d124ee1f9597056;
 0x15a8a27ccdf7f31e9c9bdeb0aa12189a62420b3fc3af4c0ccd527bccdfb31261;
 0x8538ca91007b4af17747450f2d048adfbba6ada49300d46163a6141d0d60a23;
 0x219358a11f299fe602b8336d6c74c8ed45e0af3437ee3dbd73c7415dd954f229;
 0x1a7ae67fd2b95fa482e68cfb6adf7a5f703170ef536e0c07c8f45e212331891e;
 0x2d8a33dc859b421d03eb431ef70e9955863e4bfa9a7650cb11f8cfe45521929a;
 0x23e68686a4e6ab0a2e24b04c5f89c2db9b6890816e7305ca2c92a912636772ba;
 0xc27986848ef557c8645754b95ed9edc215e526d52dd369c0777d4f378465d03;
 0x6e2cceaa215aaabf58f2e6ccb3aa062e24e506f3819645131a1f846cfc24749;
 0x4ca455e242a91ca2143ae13d31d0ad024552abe39636c4215d7772512868b97;
 0x20107d5efa2baafdc19cdb78750be25074d5052d77309209d83feaf764ef4493;
 0x284a8c5b8405a825d8acdd215c16bc5170fb4c5460d6e775207047b109fc3e63;
 0x190f922d97c8a7dcf0a142a3be27749d1c64bc22f1c556aaa24925d158cac56;
 0x2617b4b39592cb7eb00834dfb430ac37e799da74e8ea6c2cbac3bff74f3282c3;
 0x260555fed187679e25946324ff117f1f487d75d8811aaeb6afb29e02bf9e9b77;
 0x29d66baa1db480fa0976c227b8be2b1dff6206980b543319ab8e6e46bf1af27b;
 0xcd6ba2405ef9e333036c7567e0e368109489be5791633c12042106eb0dd43b4;
 0xbb6ef374a10b4538ef1ce3c0cf6ef6c885dbc2f449892bfd17e82e7fe9890f5;
 0x294e76b2d0fc3b732ec3ed8f73b8e1c616ee0012b69d61417a4cd5f18f893c00;
 0x2a2d473497afdb60a7008c7dc7ced5a33fed7c5424bb6a1299c24f373e7f16ae;
 0x60533676e96c73a3e183dd8f585c78427c0cbe99e97f8acdb098889df1439ee;
 0x4d3ad331506308539d84de77d62f6cb661c870bc064fd3359cc711a06baf4e5;
 0x23444c530e318b22418fbca527fbf9fff0c2c92d623f365277d65ac7ab90058b;
 0x84a073506da63fae8ee908965d634da2a789160f1ff73faf58b676e5c914b52;
 0x6c1018af2ab1b629440d513a4971e62b2dda42233dadeed10e4629fb1e15c48;
 0xfeae12c9ea34bbf39373aa3c159e553dcf7412caf17269a6c9b7e9dc594adb;
 0x21f5f23b0e3f44f8768aa1ca35edcf5e919eefc9d9dd47e44efcc99694e51b54;
 0x6209e20306d5ff2ae4443bffed0948b2bab65487650f1e1f956c9e5413b168d;
 0xe981747daf6de6e6be60f7ecc28e84be0e4b7e8c07ad2128fbcc12e0c7096b9;
 0x190f922d97c8a7dcf0a142a3be27749d1c64bc22f1c556aaa24925d158cac56;
 0x20802f8ba4a922457a1aefdccc804a9c34b885a1e9f0fd94473479c74e6ae02f;
 0x19cac2ada760fa14ad038d2482dc86661772ae15de0ebe6a1a767082432bfdb;
 0x2c484464a823c43053113755869610b16e5116f2bb1f3e024d65d9206c3c63f3;
 0x20aefc9cd863f976e7e5f601102158b578357e3072ad22e68028640e5513b471;
 0x1310a6b902d3736b0a50a32048c81feb98e02943bdb12700c714bf6b255f3f6c;
 0x28a2e47b087e9828ea526825aef8a8b4d5a36020f87b4672c36a0b3bea12d308;
 0x2edacc0aa69661a65100e4686e467aba4f2c430f61c77707e0ad3c2fac66c096;
 0x23b811e8af4e671b9bfd2c2d83a00883108e704dfdcd7944fa40c20e72e359ad;
 0x36cf4860115229cc61870796bfb55ab6da45a3dd204e1e66af397018f34187b;
 0x1ed097ff6526283590ece731b725b9f734a7f516d6a8b1eabd4120c8d0fce65d;
 0x2242d9a8c934bd0f2b097e37feea098bb500091a496bf689a59b795c8d7469b6;
 0x2e1dbf3119ea622492c1f15dce5addcdecb3ec045028e9ad6a8bccc85a456ef5;
 0x2d034fb552635fa6bd63f5e91ee8d7bfb8a2f1ba395190a177b2bf1aa76642b9;
 0x12c8e6f621ed980c07cca4bef17af232d32c2fd7cb3fcbfc971947e66ecff2f;
 0x548b4a31bab4692a858acd30fe523c42e8f2dce046f2f121b0c82cf5bd306b6;
 0x4985d3b7fc1a4b5fbc70fd37205abe31e33c4beb6f13777967ac5fc07a3df18;
 0x190f922d97c8a7dcf0a142a3be27749d1c64bc22f1c556aaa24925d158cac56;
 0x176ad5e77dbf9eff47130906d9f295bf1139d3cf00fa5ab42bd3e10d357bcda1;
 0x37fc3c302395fca97bfbdbdf5ff14d1f71300057e7d994fedd19f2d779e41b4;
 0x67b7fa5f5b640eea5c1173aa40084c2893f0b66c4d8eedf9e48444de48cbd81;
 0x1ef50a9851144552374b8b175f1a069b99271337c29a94945140eb7e1a9560d0;
 0x4a8f411eae9b96fceee318a3d82e839354b0999e8354ca66bf7f11281c865ba;
 0x17c90c447cd83ef7d547209c4644ac95cc1017bd65360faf58a8cfb5210bc891;
 0x2b324c5a69146a0b1d502937c9f1764757d43065f7c3c7d0a7979552354b3f98;
 0xcd0a626b860fcc13465134f015336740cef85aa91bb7c919d4f1285dbe4953c;
 0x1f2baade720437f5af71bd826e87e155552a95da11c06402c76c8c574707de8b;
 0x1ce2ccd7a415304ac0e6f1b265590359f970553a10bf8df85a55eeebf5cdabe5;
 0x1498ca31f8887cce647ee52fb4b3a177a3d8256354cfbc83ef0349fe3685d1db;
 0xe6e210f18faca167bf3d82bf9f9e58d6e094c03b56dcbd243fa737e0ef93bb3;
 0x12cf450b5228e1b7823665a58c105ab37fb064d287b28f115ccd128cae7e440b;
 0x1fde1a9a7f3a95883481d25eda60225f3dd6f67b127fd2db690aac68bb53fcf2;
 0x16b2c4b1a4276fd90d0803113fda96bd017491d592118ed721b2660a5576b192;
 0x301ae24bfd116b2a5a8ab9c08fe26cbb20d111ec34b7f7b62ad4a95c95531436;
 0x190f922d97c8a7dcf0a142a3be27749d1c64bc22f1c556aaa24925d158cac56;
 0x887f2970f378099bd8129636f847065b81b3cc57e229d2d00a15f314f1b705b;
 0x19b3b01cb6aabb13901f8fb5dc1490ca360284f262672e7f0d39dbbfe0cf5e;
 0x1b3a6e328bf97c4a2bb7b62451d8d21da221d9f79dde1d20961a5730191499e0;
 0x170932e63d8ed05d6b66499f32e6261b8001bddc0ca176081b7fd35f9c2a019c;
 0x1899457555eb5581fddb51340488569c2b4adb0e7e6e1b59a36293b3aef835e0;
 0x164f7a46d01b3ed26cf79280d675584af03ef532ffca9b0aa1fa4c046ab9729;
 0xea2ffdcabe9727588526bbfd56012495f1d56b06a5737726073eb9aa7052aaa;
 0x7ecb58097193ca637d89cd708a6610e9bff056d5d477f0f0baff2fc922d0334;
 0xf47e601e82ed174b715554cd3d5529682511ac8dfe48cf7f2ccc1093a892d5f;
 0x174f79e424542b0e34f0fba0d6451539aa56c56f72fc1b006156f46a7cb7c2ec;
 0x1609850116dfde24d7cb5510912ec1f4bc416f9a5e57cbba8de63a2556af662d;
 0x10ab565bb9cf436914f214352b48bdb7457ecada07f09215c9522fc79701ebed;
 0x25903539c56c72c86dff0d320e4b89921f177b9be69aecca9e52da81175eb5c2;
 0x24be2bc0726dec8e7e12fa3a18808211b32d0725f4d6414911c250223fde21bc;
 0x5522494472ece35e80ca3ef35636e8e5265563cbe43e50a14d77ed0d9f894d7;
 0x2a9d37d9b9bec22eefffec1acf6a2dbdaf5054fd455c300a6763169d4c4c2505;
 0x190f922d97c8a7dcf0a142a3be27749d1c64bc22f1c556aaa24925d158cac56;
 0xfb784243c37202b1648a784010d674f2ccc662e3e72dc97c1e76f0f815948a1;
 0x993e6aad24c4d252ac53905907ca3610ef2a5e6e48eb3da752bcca5dca973a4;
 0x15fab250b63506ef0b6fbe565b15ca337504a59617751f3e91e75891e8f2fa0a;
 0x22b851ba2d74cc07a36f73cec3f54f2e24f7a5ea54bb5356e5570a4e55ed1f8;
 0xcc28d557fcbe39f2da5a831f97ab31d4c9748a30c1c027286f47660fca9fc27;
 0x392cb28a2f6f3e8bd6f869dee34d83fd84625f658d2c6b02a6acec49940d369;
 0x223232ed91851f7027a7413f23b889f73f18f20ea91b308360b074250eb5b133;
 0x247502139fe5a4fcceafc47ab0835fab3778866a0387f67c0c11730b7086b423;
 0x574e7796304031aa15766be5b419486db72f2cc43798e8a8ee6ade15ea64cb3;
 0x1d18392864858785d134b2848d7fc32cf91da60461efc01731ad49bbb99ce7f0;
 0x2b927f1d1eacf0ee5d3246fec97f13ddb9ba2e34419a7f0fe151f8d366df48a6;
 0x29ca195348764c2600076d9a475508b7fae52d6a9c92196241ac3f08d090459;
 0x291930cdffd0acc873be352600a12a6aa056da7621cf3324e7636f25ef4d905;
 0x13e6e58779312fd8a2ed9368587b5e4c207cb8cb99621f4254a1704c41477656;
 0x74c6fc957511e7287e7b6065c03d55ab19881e2cabab988bcaf997d96b90802;
 0x1da0150f5a7104c25413c83f1edcd3dbcc49a91881af8b3809d40221bbe8cf09;
 0x190f922d97c8a7dcf0a142a3be27749d1c64bc22f1c556aaa24925d158cac56;
 0x17b4a6a22f90ec5575a31b71aa505b70cc19abc0fabedce5dfc7108bd5472ed4;
 0xfb75a413209d1ea511b520b3ad4e96dd0a548ec6d5ce2de9b0edfaf667bf213;
 0x7229fa12e5e9aec5a258249b3667fa5a1a7e9bf69245efdc66a11d4cf9d16eb;
 0x29344527ccc73bd6ae01d4ab76d7d8205643e8c39628e5975b0e68ac647e7dd7;
 0x2e06815f466128d5b0fa1325a96d6f63e513c3c3590f612d01f0ef02fdf74ef5;
 0x2381219c79d22ca23e9bb37cf7f3da8125510c1a9d7e9e26d028ad61f3ba94ab;
 0xf724878c378b234a5bc4fe6f51c000682ce95721afa4c802498ff5f4e3599d;
 0x2961aca4c9ed99dcc5db33902857ae905af926ba044b93d1b8cbfdd82de72c6c;
 0x1a661c53d875032769a8a89ff224b3703864fd77adba88076f9507884ea8dc0e;
 0x20d8c84a77dbf187d873feb492185f9341bd7d20d4c82d4c588009102389aa1;
 0x273944a60bd81f3c014cff9a5e1b1d99079a7db63860abdc5b850138c3ed89bf;
 0x2c3483ea9e8733bc2df8605d84cc2903a10a4f675f803e33090bf1b96d7b6f5;
 0x2c1570fa771ac87f6c1c7dcb0f5efe2ae8bceb26280adb11f1565bdb3234193a;
 0xf8f2bcada2b15807d4e400663abb7ad2a6c653bd3e27352d2aa03cfacebaa3d;
 0x13b356322af7bf7ed892859c3512f21831d23d6ed46bf4c3514762c2a468cddf;
 0xe8ffc445422b035202aeb459085298e5c3d52ad57a4e0c982e4bf6bc430879a;
 0x190f922d97c8a7dcf0a142a3be27749d1c64bc22f1c556aaa24925d158cac56;
 0x266878c7dbb3ebf725baf09bad62441c2a05a8cac838d637371bcb71f7e637ec;
 0x69ca7aea6fe25ee984031f308b491f2a550e4134769d30dd374c0c97ee16568;
 0x190c3bdc4ae56b9371806f99c5247c7f6071ccf725631c6f3435075889f34956;
 0x1d325902dda87290a07b115f3673203fbb2039cf470f229881c786e115ee6abb;
 0x1b2936a6bb1b221aa267ce939f99c211b758c2128f8d544c4d0b5cbc660fcd54;
 0xf9fff4eb7e28845be6a783736f297193297a7cc12caf5dea6f07b5eceaf6323;
 0x20e98cfcb657b1f49c92a069ca501f89e96d73ce0791edd336a7f5e129e5ea11;
 0x15ddf382f5b945869af8a3bd1a030c98d8350e73600aa0e8e1d4ed5e9a89b5a;
 0x93aa5d4e7c2e0b87bf1135f3f0d94b40d59bb293a582031adabfc2a8ab17bed;
 0x83ea048a2fab7aed31a80902174faa9f1960bc2531d18de673fa873fe688207;
 0x4849567874ad0253387252406f2d8860b26b6b605e98c874a585bc157c57a39;
 0x10315d0548c6fde9fd87ab4a523f74d3a5c791e455f90c34b399503fd9662149;
 0x29b768d0c1c037e2c20b133eeeee017166d2797ba47a2e647595e5f0bb433c7c;
 0x2072b5dd1028087414d36c4fcb845d4e4e719885af8f4abfab39fa404fc68e6f;
 0x1434175409254eea7c9b9fc3dd93314403e8cdd56f9cd48348198334c700fe6d;
 0x2da9b2eb148cca6790f4b12286fe560880d75e66bd4c64ef8ee58d7551ca56d0;
 0x190f922d97c8a7dcf0a142a3be27749d1c64bc22f1c556aaa24925d158cac56;
 0x16bfb5fdd4ef9b81e92336ef013f8430727960333b76b5eb81dad8ef220bd284;
 0xf746438c3f4e612f088a4113940619b5d96eec18099f5b912b816fcacd03ac3;
 0x25f8d85e6102bc16cfcb5dfe2a0a6850c4f7d045a3614908d332702320cd2445;
 0x19a23070f8afa08c4a0a2e8a1067db44e95847e5ef5337057437eb68b023ddbe;
 0x19e74aea657fd4206322de101be54c0a70ed001eb5a3b897aadb178cee98303b;
 0x2a32e9f7f76615c5bc2cea017e1e937997d33d011ca2c543dcbf08664f247607;
 0x2eb2f9782b5103cce27210e54c6d760ad28af00a23b0252a608ee0536525990f;
 0x324cbb7ff16c463fd8860a5c6719122702f8f055f721f7c2ad5121d03ccb6a0;
 0x4fb92743eed5177e7a4eec1917d48ba4bf2df9864f477edd9984b5a1b37d95c;
 0x232e90742d5251ee73e1e55ede489421aa4d9b7f731d9209e18ae772b1dbf163;
 0x2888b0287bd050425c3241bd7d5336708c1d2410434d0bb8a094320552499791;
 0x5e878a6e2dcb5fb6176345fb830caf6edf06061a452e94d1d49a862b1563411;
 0x603e7150eb9b06c9c0b94832d53bfacc98e26386e2de0047d289e44483331cd;
 0x40392b8780bb071d2acf492bc6c49d03ab66a7d7d1689f16a47160923d6303e;
 0x27005786e8d1cba94d005f8821f564a42500562da999b4c40163fd15d20a7188;
 0x2f6ee6456256df4b7b4534f97dc725df7d9e359a8af4f84035db5ead72d85594;
 0x190f922d97c8a7dcf0a142a3be27749d1c64bc22f1c556aaa24925d158cac56;
 0x249d2e3a72d67b9ff1c12f00d2e2d15213b2c3d534ee1fa7e0726235d5f8a76e;
 0x66af81c271fdb20f0f7947ba7689567fa0acec8e8760311b200713a3cbf2915;
 0x2d07f33cec08d772afc8a847245583d60fba733b2874e3f14d59770a6eecc1d9;
 0x2b5752992e1969c88ef2bd4cee7cb74d7af5c73b2c43c148d47c0094163b7a03;
 0x17eed7f1d2c6c6d5a9ead4a939871196848682bc2aeb713409769599c6fb99d9;
 0x2b0443e7dd8fa52629acb60c4d9f489a3b485f9bdaa3049cce07b90494140c99;
 0x52e92369cc40d1c0cfa00124ea29c928b85c7b64c1b5a9111c07a33d28cdb7c;
 0x2d590ad359f3f6d0aaf8317cc35b62d92b05b0f5c685cc8c3a369de6d1d1ca99;
 0x2983673217a3388ea6ec1746e62fd0c1d2b2d774e63564ae271d77dba331817d;
 0xd5ce1123b37edc685e8c234f618c830e87b1b95c108a83cd9d5065ce002130f;
 0xf9b69256d0d0e083ba08fdf1bcc73a95b7b378ede36d8066cb024b8820bb003;
 0x290490f51237cd7ab3824f2057a7a2eb725f946442c7987f7392e4c85e8dbd77;
 0x2bd1c921b2655ffb99e5a5de025d08c692fce4e57a3c401fd655e2d05d92a653;
 0x3fec0bf41ee1a2c0a7a0b7ce73053431a26d2b7db92d42a41911e6129e3fa9a;
 0x2d6233e08181a3c9db09017c0160c2ef359139513990884baeee525b2597eb81;
 0xfbc98b8d3b0b6f2b8eb1e780db16d98ef5d4bf4e65ca518e62dc72f693544ac;
 0x190f922d97c8a7dcf0a142a3be27749d1c64bc22f1c556aaa24925d158cac56;
 0x1f04cf1ca4f6db30e843ddcaabd4cc71fcda39b55533db1a8b61488aafaaba74;
 0x1a6f6a78583cddaa58898327f4ca8e00ed729dd41c464fc9ab0c5e0d1b2e9bfc;
 0x3e70e81573bda5c6ab953bcf41581cfe4c65e2d3c04cf1ecf43a2c8ad250d06;
 0x13fb5b6c8df4a5257dd67b782727d8a7d90ca92c5d9a755847a1d3b6b71cdb90;
 0x4d54595c25b41536d1f203e1a367acda8feed3369537ca2557f5da49f290e84;
 0x13671d8ca7ecb93d29c9123bca96103e22f68fc5a16968fe903c0f30e8bd0b44;
 0x1486a9a8302df3771d974c562e1b03b96daff1e1fc6bebe86595d32608a85bd8;
 0x7cd279d7d44931e437f59bef5027f14e49400b0847f4117c762ce21ea66775;
 0x2358686de458647dcf3873e187eaa940fca529dd9398d2eb002a1e6f0878ac8b;
 0x196d60cd8de82119c9360e9ab96b1bc31029ea6bc5a9c891584febe494ad5d53;
 0x1e18e5d708702aec708672582aebcf2e4dad6be0100a7d84f4822e156f2370b2;
 0x18d0a6119479f34c41acce9a1086c6b1a340a3d4eca4bfa561e4205eeeb8438f;
 0x41e39755ed3b12972463551f41d5f1739433b966b759014bdb9d214ad9a6fc0;
 0x1becd98d1916cbaabea2082b8e7f1765f838f2337121baa896e437be5d4278bc;
 0x2d11307d21979b68119899fc08b91e02822cfb7c49ce878ac58584913d6c8a29;
 0x24b7d69ead7cf1c4c204d6d3e23368fd40db0f2df00a4a8388557b6110917538;
 0x190f922d97c8a7dcf0a142a3be27749d1c64bc22f1c556aaa24925d158cac56;
 0x1c414080171ef43535efed9c5babd2275b89e5b175f3b71314f6c59040c97808;
 0x397889b8011160475bb4d6d3379351bf5ecf90800b9cdf57bd3aedb21053cce;
 0x24ca54f1fda634f9bfc0e39b0d4d6a738f7a012898e9c2bfa4a42ed533e52845;
 0x171598e7caa20c990e43306d06b2fbd5879619ac63904e4395a53ad5d60e60cb;
 0x305dda5b8003c236ca1d724beb0335d07aa3b2ade1ba21c59dd763f3019b5ec7;
 0x1ab2ed07578120b399df57c5f109a40e47eaa956e66a6629e1796bde7174bd21;
 0x2a47862d2f0d0629863c878ad7fe7df592ba7f8f3f94e5e5a85aca3958229f76;
 0x1bbc9591c66436dc5cf4bb562468584632cc91a200b1f08e1a28ae61e5c30abe;
 0x265e971c9adce13dd324bc968020828cca064ecf477268ab534265d7e5e2ea21;
 0x1df96d7436aa2918ea082546a9e3e149130fbae6776590846e0632f3570657e1;
 0x10a8c8aaeaea0414d87c0c1553784b744ff2e8965942d3828e14c484f84d2535;
 0x63e4901d2d6197831f94a5ead9b058847ad67bcd8514eda44ca69a0b0ba9c19;
 0x1af00487deaaba2511ec6bba34b8f248a5106b11d69cebe26fb5f35d2745feec;
 0xceb1792ea63e2bace5b317ceff4597ccf3071a67199612396650e8defea646a;
 0x7fc963b8ac37064379d5a652f999038ee4a250e0e3948cba3b899840a119387;
 0x17aa663de33227a947a00ebad16999a905bb2976d0c997a9a5a9fda6690754e2;
 0x190f922d97c8a7dcf0a142a3be27749d1c64bc22f1c556aaa24925d158cac56;
 0x27e7f01f7e5850decff3c8f5c3ee53951fbe076ca41a7e1807cbfc4b8eedda63;
 0x13e9c09190f744dc7563c578dcf432de2522b7c7f995b2880957c5d2c54b27eb;
 0x291cdae728ab7b72e119248c0646d1a7c305afcf50c9dc1c1eaacdc9660d21a5;
 0x2df268da059255b2d959f934bc217781108e61710f0e3c460419d11f1366f45e;
 0x959f13f2c04b17e795093b408f590b85f707e54795f5df80bb57b35c994dbe;
 0x2d83db369e2b48848a27b55553a8bdb77e067a93f1f28db9de6c65b14818558e;
 0x2cac7303cf0462f21c4c154984fef173c428c47215feb2c0355c15de4dc64ae9;
 0x1f16c3b17497d87c65b61123d1954717fff18f21ccf4c86b4ae27444b535222;
 0x211a857b06dfe2df621d3a89a4bc05dd0247add6ce13502fe7fa37e63888f7db;
 0x1bebd0b81ea6cf89919ea765ea6d04d035d73cf7745eaa757cedfe625d10573b;
 0x2cb676f0cac23cd80bc40f3269d2610fbdeb7f20f5a74d72224525c6e3ff69e9;
 0x1e478ad6535f1ecc579056c6ac6ac8744f8e35209b7a081f47a5b0c33bf144d6;
 0x1669c72208abd4ae25158c9c73156e966504dfbb6a4bf9b6fe37a1e1053b049c;
 0x18a94771fbadbe268f58cc38e48ee81e3cb5a94b8b2cffa8cadaf75a171de693;
 0x203411c7e08bbc6a10164451062b19e131ea52d02dc1588d3591c8abdfe1fde6;
 0x6cff9d23d331be245ca3ea0e37355132a367f5ceedfd64c842dc9aef97651ef;
 0x190f922d97c8a7dcf0a142a3be27749d1c64bc22f1c556aaa24925d158cac56;
 0x167961cb9db6a7f1e253bf7c7d0711beed69fc736276820f1f7df8cfd1305bf5;
 0x251b413e3039cec0af54ae9d0dc7ac5ccf5feeb9ccc482a4a4e93df5dff6eaa1;
 0x22461b5ae9c4937eff6dd0c2ad5475f20abd4c5d13aa3894f20ce1ceef0511d4;
 0xd3c8cb0ca400d52f3eb96f6e403aee53c9e2283a19826f9b770d5270d3f2316;
 0x14fe9ead6519febc01088fab56bdd7826c35952169e8c60782ea746036fcef1;
 0x9e8b9302c470b946bb4e24b13b1692266be83cbb0f833527e1971abc11676e5;
 0xaa736ba6817640b3613ce5c87cac8f64ba74ec23f8f5c75f0cb1dd2ee552f00;
 0x195c4f3bfe08a064f19d6fbb6690f5f723ccf6851db01e64dce49b82640d624e;
 0x10bf96df637b9926a92efe91a6095501db10b10b9b8207e73eecc3147dfbe14a;
 0x6f9ea58e02e97445f704f68bc535b1d9d6ecbcd4d151bf2bf9f6bace985c14c;
 0xdb1da59cb0bc70afbd95e428861a2b708b9894749a2a88e62520a767c4e6d48;
 0x41dc2cccf102bb7168276813ff0dd2a3ae59f4f35de8aa1404160be701d566a;
 0x33b21d96a57d2c1d44c1482289bc607254a0395fbefa3bea25983d6e1d70893;
 0x27b5df4b4bde32d934353e58dc214d02a835318804ddb812a81effded6706985;
 0x16c436812dc3bb29c680d81bbda2fc964fc0cedea2cfbe4f9f0bca7451e2c26a;
 0x1075ab0069e8017ef2b84b9034c0e4e981de009440f57ffc72ac633624caab5b;
 0x190f922d97c8a7dcf0a142a3be27749d1c64bc22f1c556aaa24925d158cac56;
 0x1f158c6c1065f78b5f780520f03c584465ffce26ad183a50e11efb956a8ee412;
 0xbe6ce6cad51b6bc14791f01fbc62bf26f20be46ad5839ddc356afaf24dbb219;
 0x226643746553477c60b99089eaaeac4ae64b308a3c56ab343e55a6174922306b;
 0x2e82b3412adb8919fea66a8e2c0d8c5fb6376944728224b79ee3edbe56334e2d;
 0x25af6deaf2918fe03edb3989dc037a834610d69bcc3409e13e7fd657b6c404f2;
 0x10168c4b7ba5c85008a4f87c0325d238562951366b754259c06402e69422398f;
 0x20441555acd94f03732b606acbb25afa0e3cc39c7f0602214eefb497b4a340de;
 0x200658fc08ceb25b3e1ecece3989b682546d415f3eab6596fd7f63a9ebcaf3a5;
 0x8dbbd95a7fee39cb863987f4a9dd8c40ec8c1b94f21735819fa9d6fc524547a;
 0x1679802a70dd63806557cd2d8dbb8788a91dfc982c672d9c2df04efdb12c6980;
 0x18b5ee46c9ef30ba46b5c242bddd68c8a1f891122ec62eb0a1ce4e0efd408297;
 0x1760042648d3c88f3800bbac32caf5e5fd6b808f50af91cc5d834f3aa9bd2128;
 0x2bc24aa17ef22eb5273e6812a0e597bde1cb74b65fc35ae06f09358d966b243f;
 0x1871a1352a74bfb73dc35b7245903c1906a12dc3d9448667225b1d61a83e8cc5;
 0x15ffecc09ae5dab7e235644f38c84af5aa6ca42f2d23b64bdf7ec536f9e7d5f4;
 0x2c9c4d817a1351cc3f659d10453598cddcb7369f9f5978f44025b9d847935a55;
 0x190f922d97c8a7dcf0a142a3be27749d1c64bc22f1c556aaa24925d158cac56;
 0x258f6b7174e2619e3c94d65ab10273d210ddb46eca06a22f81117fe5f02bc38c;
 0x7b65580ab28befad1640084a12ab11bde32586ed38470937985e2ea07eebdde;
 0x2251fd1d0a5bd91d3f958b9377996bfb6f7e777f3b2a3bec54befd9a19b429a0;
 0x226bb0f7370463f705b99cade44a76fcd63a762a9685f7a254d9bf67d9711d19;
 0x125b1f6876e2cd4548eff5a6ea0598ebe43aa0748cfdc53c83987489c871d0c;
 0xd6400436f874ac40bc4e3e392043675a8f8bd071e38ac56d630f810a6c382b2;
 0x152557b0f424f9188e7c816e36f83ff9be71abffa7caea38fe42b0b7d2731395;
 0x2419922a2d394b1837d8687453eed9aac005a6128ae835110a204cd57663f4e5;
 0x28de832e55c53a37639618510388ac059fac106d2833311efd450dea8b112d6d;
 0x19e9bcba7b55e568c983d797460754fad7f04c39a4d078a0faa9868557f34ae1;
 0x283908c8bb48fee64ac955e7fcb47040fee47edd7810e5ea26e1d9bea337e1a7;
 0x25c8ea766fae5e6a1a1a20af4b178812c0e3e38eb4c5c2340b1fbf4468c9bcae;
 0x18cf37ce25ef86d2f7c9aeef0e79f0abb007fee6222e9952c9f734480bf974ab;
 0xd41106aab9ca69696aaea2184622f814fe087b12f716e2dae58069776e1cc02;
 0x25a1462f1d5a2353e1af93865e7ebaa573bcdd2271b268415b05fe113c8851d8;
 0x2d96abf52f1de16d6ed6d4d9279035f5bf5b825754dc21d11feb94e3b1700cb8;
 0x190f922d97c8a7dcf0a142a3be27749d1c64bc22f1c556aaa24925d158cac56;
 0x18e5610502d2a1bdca2d2cd38baabc9fd641ca4e9ab4be237ad32c72dc880c85;
 0x2bc2a1228621dc365cacd7d5607b93181b585843070c12a7abe98c2ddf0b8ce2;
 0x3e57b7e7ba3e4e3caccb663416bf20ba7df9fd5fa25d95ad29970a6098b5d47;
 0x95beee076b8de68c794636c1a75a0f1f79e694e9470af6557dd0a756ecec4b;
 0x2063d0dce7c0e4dcb6eda83c1d2e9d2f8fb7d2754b2a116c80a5fce17ecbdfb8;
 0x2793560a50cb73953010b7881649cf034817d3803411649c83fe7de6c7dddd22;
 0x927b8161885b12371bed6743e7f3cff4e26596f26ca6e10ef9b62824c6d9408;
 0x21e570ce0b93102f53c6621c813a62dfef04444d67147e86bdcf6d89982174c2;
 0x4da2abb8299af33e497e76256a8829bf2e90fdd6e170ae91514dd25fef2450;
 0xaed6f83384c5c1b36797223e5b98e0dc7e322b205d9946ad59be72a56401995;
 0x1043df1375a10cac3d79397e2572c2de5910c9b0cf9c8a36a8597362e2cad2d7;
 0x102b5227284acad6650de094677a51bce725c6da6fc1043a7668e939829a5593;
 0x71b883401c25bfdce86be56ab497a10814bb19804c57834b4eefb6990b0ca4a;
 0xee706d85983efe15078748f8f19a299283737b33a3c7a74f3c10d2e8d938fa;
 0x1e3ea0d9146581209b7018ac5660e20c5033641c101f09823d5f305220da9b2c;
 0x1135f9d772fcefd07385bb7c8b5fc0bfd38c1c41ab6de2da8c8b3bb3dc6ba093;
 0x190f922d97c8a7dcf0a142a3be27749d1c64bc22f1c556aaa24925d158cac56;
 0x5580932f510469f70096c820d9601ad87ef2f66990c8e6eb98d6a6dfde27a7;
 0xc072aa3c1344e5535661baaf0855759b2489b40320116ec0b304f81402a9a73;
 0x2c5e60d6d9cee50f3880234e54b391aab138c81550ffb9cf7ffc83e118fb1612;
 0xea984db0b29d0ceeef9eb065131137d696b4dcbe9b29e12d0bdb74736fa3cb9;
 0x1461bb4b296851abe76ef1ea0df56b555c76879960935307fce97eba31a58550;
 0x217814f2d889b58d9728a46eebe679760022e1d564c5024f6b77667d3a31838b;
 0x2e34b63991a98aeef1161f9c02adde896d1be685e9887af5ec9bfe845d2fbd25;
 0xbb51a53298cbb5297405c865b6ed23804c9926319ae9c5c7c1ce2478d90c59c;
 0xf0f1ad048e7b93df29617d62561ac209b488f58234f3461286e592f64a1dc90;
 0x24856651f6c6c72ccdb29fdf1fe0a24388247c5dbb8973c1c87f3a933fb1a341;
 0x13161ed9d7133008bfb93eedf4c667744c0df4cee0e0ad9038fd0968f726087;
 0x1ff88f2a80b4078a90df72d706725ed9e450488f975fd006196208e399d8dec1;
 0x2c300ce9260279a67bded94acaf125b7c98cc2208455fdcbff7fe98165c1d4f0;
 0x180152334a015c3e7d433b92f0ed2365345ba1b3dd06e556eb6a39b45b924ba5;
 0x1469185941b34b5a4f529c1b5a724dfac28aa98c8f830f8b1045ecc65b787f4d;
 0x7be7c3b4de9f53e54e3f4f871cf62f4c7720d3a2e7baccb74924faeb3bedf89;
 0x190f922d97c8a7dcf0a142a3be27749d1c64bc22f1c556aaa24925d158cac56;
 0xdbd81cdf5b54b534485c26ecf29628e9e8070fec90c34b780acd5bbd4e7f0c3;
 0x1735ed9f6fd2ea72803084da6d7e20c4735bf3de68156bdabb3888dd500476b5;
 0x302871833d038dc61a984da78e5037234c7b2f114e495451bd388879b8ee1532;
 0x5bf32698276e20768a54f9bed48935b674ac85bb3d9251e1075207c1edc0060;
 0xae9a1e0aeffd431594e5745e8f4d3e5800361e8028ea0b4ba98419fb0fb578;
 0x2b98b2ea75766211d9a125db8e6e7fb4a913812216365b1f6d2663deb1f0c19d;
 0x15c0f1926bd600c94b15ee1c00e0ff93c7de8b4a935023bb59c664fe01f30bf8;
 0x18f86036c6136aa605da0ad3d4251e64ff31cd436d72b90ee5d3157af6d79e40;
 0x28542871e40749022211b244fce0bd160867865206c873f6668ec51a429f9a39;
 0x2432259e7f4740024bfb2b71fc694fa8460971ff8869fa46f539faf994d23d42;
 0x2cdbbb1f729d6ba0040b0fe63e0ab2e24a1ed05f4c2947f2a4dc78d49bf68617;
 0x1f7d6c170f7a83d6241fbec95436b20478184b02ff7f4cef3deccc92da64b3a8;
 0x18e6f168622d4679b6579a5bbe6419d8c868d67294944f8246a81415b30e6119;
 0x9a3e52a4ddb98644cf4a701766c1ca5ae4a35ef1c11a017dd6aa11945fa53d4;
 0x136a031823304ab94c93e3bf39b189e240a81e0a42b6060e38c7c2064b8148fb;
 0xd82d0c90c41c41fb24d7160c8f1708c258222ef0539a2776a20c742dae0a624;
 0x190f922d97c8a7dcf0a142a3be27749d1c64bc22f1c556aaa24925d158cac56;
 0x2b0f98b255bc9fbaffc4b09dfe423873babfeb16c64a31d8f7ba70db133e8425;
 0x137ffcc374ae9e222e733fdf9d0c515946baf3c1aeacab2c6218180eec5d6a48;
 0xe6a056e92c767cd1fc970b338fa5c7377240432e6bd45aadd958d48f15d6033;
 0x264c9a5c6eda708da60f401ff1171c9ea279af17f1df202bb27cc56773a37853;
 0x1862618d4abfaf9e176dff2dfa86f1b94e291ee3e02dfea816637787edf4f37f;
 0x4d0d2b042b8d971610b3b9433f373d693a306f1082186a35a8ed6a758e0c11c;
 0x8854bcafc5f356516b2df46f5386a116f14de1b197290316d49869ee6dd0187;
 0x4b8696c509d9557bd8cc6227caa099f002c5101ff6d5b7a4e48284e31992562;
 0x125c58848e89261172f9ad256ef6cb755841d2913f2ee2ae9d68fd2eefa84d9b;
 0x181ffc981c54778532d7ddd39ede7dd3e54d655cfe6681b049df6d85f76439fe;
 0x198f1451b611973be77cc3ae7c744af71b1c94e3e87056b7af1e949e92cee5a;
 0x4c9f885fd1b69729a871eb611c4a9ef1e009b0605a0cc3befbb806701b63853;
 0xaafeadc15dddce6b214e3991babc93af04e3c6db03ae0e1408a503e1eec3433;
 0x225622d35902840ed662b3dc9480d941545df10f2f1a8199260a65018d7af93;
 0x209d4d14e8b9192e061a42f149c09d0c9831a1f02c35412f4563cfc03304ff9c;
 0x1192a624780a6633d00dcfc49ab6cacdbe3d4a62f6c7d8abff6094a678714f2a;
 0x190f922d97c8a7dcf0a142a3be27749d1c64bc22f1c556aaa24925d158cac56;
 0x23278ece68d054afc53c1489204000d720cba66a63842ba7269e35e0bbc6d14;
 0x9177ed9f3f33508db8be8f15b53360afeccc2f208bc7143bd226b4c885786ae;
 0x175a7d6713e16fdb34e680606af50037ac78419ba5cf0dece2aba5d849184975;
 0x1bd2f6eff3f24489dd492eaababe1b0c09b50e983658c1dafb2bcdb69a724195;
 0x16b53ba34c5215013c262d62007837ae1cbfae155bc7cb3da840bf945becccce;
 0x2c062183d49d2fd7140548607e86ab487b7a6f4da0109dc8b37955c866ba91c9;
 0x22451ab479c09eecc408145baafa7f51fa598b3ff2d057365903ea317ab9064;
 0x82f7e3f789ae657cef0f342c994968f47fed29262d4242964e0e793edd2af9;
 0x11139d29901eaeae25fe8a6b8b27062045be218be37844305ca3b7e348b0438c;
 0xcbb2e8c216cfa7779e8085a1a8b24ea1ca6446a664b48d576accae16c0e12b6;
 0x48f7ffdaec0a2144b28a00ffeb5b61300386fbeee792be38552bfc8363561b7;
 0xe0bba24d78116594570dd93a932c82b5b6730cda14170f58b73105e29fd59cd;
 0xa4dc036fd4d9bc2561d3d0c35a0222670c59e5a0626e36811b56646b345a0bc;
 0x1a1f2f87b5b4221b764e44a68abc8f56f6a97936fcfec06a3022ce00a3017373;
 0x1dd702226b6b31fede8c6b8067fd51da81ad5b970b023875c1ae5bd2d56cc29c;
 0x22c40118e01863b586d4bc9b2640c4f6c903410c17f5bffc7032420d494d5058;
 0x190f922d97c8a7dcf0a142a3be27749d1c64bc22f1c556aaa24925d158cac56;
 0x18b43cb399d143c97d4f8de9fe9c4aaffb6dd3785d9ce5dc9651b975b9054167;
 0x12c599db262111be3d9842cd39f3a6f34e51abe1c1bc0711e12f69c3cc973e7e;
 0x8bb47ee7a3961cbb9c94a68b2ccd3cf4ac95e8836f7538addff55f926bf496e;
 0x2f5694920b9644b4396caec1b4c4150eb46a18cca0ebd71c4be28cedb456b39f;
 0x307bc951cc2c9d4eff936eb6098bc1fb25254728e3906bf089bced7826fb137;
 0x17bcfa98efb68a8236a23a716d27b3cc4539c8e79ca9026a9b5423a6442e2eda;
 0x14787ef740948dfc067ea4f81bc1346453f77806e6bc39e3defdaf82eb952e96;
 0x257a201998e59bfb34cf5494e14c65dc3f2fad4fcc76aa9dbaefd0005446972d;
 0x12a8d99dd91ae7dc9bd892be2c72d980ab6459d3a6fb8efb96a54dd414906257;
 0x200bf208f11f7a4a4de085188220177b52da270fcaadd23e79e9e879dce364c1;
 0x1a9f530729b8ca369b1d5e6937ae365f01dde06c24722bf111ce4ca5c764cb06;
 0x651d7f9fbca106c4e8b3b5a1ce48b2db6bc1657f7aed28d952e28711132c0ea;
 0x2a3316648cb65a090f0faea9d38323345b7d4a91a9587a9e8d1cae632896dcc9;
 0x1553ad82056a8d74b3bb80bcced6a7779eeba7eae923ca8b492b9bdae81110ed;
 0x130aa152e81341ae6952e6732a315d1567f3ab12cdff38449e42c18ee55e388a;
 0x2162c9c868800aabd5be303b798357d4530f56e0d8c94c99e095740337911cc9;
 0x190f922d97c8a7dcf0a142a3be27749d1c64bc22f1c556aaa24925d158cac56;
 0x138ee349a5126b8c59ffcc05c3e58041d520f8cb80be3db2d0b72af7a24d090;
 0x2e59364c831ea593aad5fe14da76a1d7705b7af94f331ab85362c4b5943b8b68;
 0x24b0f5945c543f6ca8126782d2337ef8dc930a1b77c0e133c6fa94fa2a19a462;
 0x2d8f29c644853834a8f1a61a8965a9890fd8460a82ed2520a9fb332e6a22b983;
 0x1e408424ad586d58ca0a0481dc08b8ee63f96c838175dc8a652ada892c293dc0;
 0x1cae05e2d2ed01ae5077fea699a2119531fc30938a5ae2c55ce656b6eef33b8a;
 0x1f0c1735c782a57b3049ebfdb7de3238a608fb6fa9f89bdfe199c3df1c1db15f;
 0x1c9b672560571e96a5590c64c2c5b799e1e317634d8de5b731bd7a51a68d5d4f;
 0xc6e7bd2073ed42eaf2db5a728b6d4f1245a87e614b322c25fc51eb0ffaa6eaa;
 0x1fae1dfd513367218a20406dde57d573c62196c4e12f5347ef486102e809cef3;
 0xe408e6db3d016f993a53e864198deee0f2aeb8309bd66f33fcfa38f401c780d;
 0x2684ad738e6116f3db8dcccb6c61cbb27fcba040b598ded972d6422299e0c09f;
 0x2ccc5b6bf5cfb7ba1e8a89e76404ba0067c3d817bf3ebfbbe4635a789c7bf067;
 0x2e3dcba12acbf09be187f2b4d453be5dd4f3cce2994f18cd1226c63de056e868;
 0x23e70e3f73723a94ddfcbba70771ce2f5a4e15b4a8f51b2828c05cb07ad2a19;
 0x169c46ee7bf4e148cbe64b6cb8aa1abee9fb5fbb04997f18ed315345a8594c5e;
 0x190f922d97c8a7dcf0a142a3be27749d1c64bc22f1c556aaa24925d158cac56;
 0x7cdcc3b6498adde2756987e13560d7664f1e805180ae0fbbee1dcf1fa417d7b;
 0x2d9b8536ae52537df2579df0ff0a06d4a99757ad71652f91d3d724b4eb970acb;
 0xa1f0085c5a9cd49df855b92dd309c3681293e5af0417301e9e5e68d1b34128c;
 0xd1376badc16946a4a5f324390a4c6fb00baf670827048805a36b06357c39c1f;
 0x106d0427df7fc4dd7aa26de279073df7fa15370084bc27e16f5f12a8b01551f2;
 0x1cadca4ffc5bd9eb861f7ef6e7ba8aa20d7709c633c90111b98e094af29df8c;
 0xff923b3ab95cf5a3957cd89d03319b4bba3287807830e11073542019971eab2;
 0x1202a33c0359b51491e38826ccf21bb0c545e660b3da916ab91b0e02e30484aa;
 0x11608aa64cc3dc635c119d0691f46b0a479e142e0532f9256d3414369f5e3010;
 0x127d38a920bd78f2b5feba943466e85100ead21ffb0bd048683c7e7ba457443f;
 0x21f792c3d068276d10650a4ef8c8e6101d763990945f044ebfc6f51126332d07;
 0x1bdbd707d55dc4709b586695c5708e9973eba79a19d6504181cf8692f7f636be;
 0x123ed252de9f1a986305fb990661544d1f0bb2d12e3e5abf36130d680d61450c;
 0xead6abad94e79729b5e708c60dca274356c3e5142349c43382984d4df096650;
 0x21eb504af959f21f9c7a6b50a58bf5278209a2631dd62bfdf6175af8f22b3c0a;
 0x27a7eed4d44ade3583fbe7ddd6fe43796ab32266aa3f4ee382c20b99debc6e1d;
 0x190f922d97c8a7dcf0a142a3be27749d1c64bc22f1c556aaa24925d158cac56;
 0x1462238c5857d995aa2c7ccdbe788cb06271537ea1a299f28c307a825e8cdfd2;
 0x20c2ff1b99b7a949739ea108f5f462a0aeea077303cbd515bc7591ae02a0d43c;
 0x2aaa992acebf67c5ac50fce7824cbf41e6e5a9f87cf42926fb964505ba60c198;
 0x2797fd373735895c3192ae84ed39007478a4b3435d8a497549edda3d559833c0;
 0x135eb9d0101c2a78ca1b03ca53bc556a8c9af537d77bacafbff7f9bc66be9b98;
 0x2f594669789d1b805b611c27ca33a5a102ca3854938369a172c78de5a4083851;
 0xb8f930192502857b534625bb6ad2ff73e94ef4db9565a7de5c513f46fbc3e83;
 0xa520b7ed463311aa8ab8e7b8fedb2fe271214127264cb3a0f7a32d0fb871735;
 0x17198721be91de95ad64e64495b07d2dfae45ea67b2c824debefece304d25858;
 0x12b591844eeeeb06eed46691ba7e1bd4d6615d2aee6f1c040e6334596ee06d0d;
 0x2e1d81aaa4a22d294a4f57ca1199bdd171c6bdc0ceb9e9e4f7371b50bf3fc969;
 0xd18e43e3b9d5671e7f8080d1b451523e655cbf183ccccbd58793628aa689057;
 0xaca56cd420446d0f57751deb06906cca2c88c5bac6d35a2f721702b1bb56c53;
 0x18370450204ee070cab3e252535bd279023c9ade36b971986e9f4a821bb0ca0;
 0x10717c1af2308a9d4ae527c637257974d71bf361d742cccfd9cbeefb04120e56;
 0x229af48ad01840fada729de64d9ac6c4e2ced8d16820f464b60969310998be7a;
 0x190f922d97c8a7dcf0a142a3be27749d1c64bc22f1c556aaa24925d158cac56;
 0x1f6027d1806f3db36b0e2918305ea28007622b62282d0aa7d2d1c38bc3a14580;
 0xd023c3469f5337eb7ad3f6a1a9a3cc877415f1aebb7e9e5a955ce93ffb786da;
 0x2b7436beb1e205a4e723df370f2c669857eff6da7fc85771e7dc8256f511c547;
 0x2cf4f5bd0389a8d20b9cf97d0b2e75a429f36d01e1a1e6a9eaebc6002e6d7f27;
 0x2c689316dee7e23d23cb31070bf6225d9cc562fb57e3fbdcec3def3143d073db;
 0x1dbe68dff3088f0cb02990e0c030039e116d0196eed2410a30e91c08cbde3dcd;
 0x16a3fcc3080e28463fa4da66d305d58b74885dc099dd32b159209361fda491f6;
 0x2f84ea8936e6f0e98529bcd5d666e87d8c7e68aaa1787fa673b8920669b10a6f;
 0xf67f541e326dfc3555b54a5a8089013085f3cef05dcdae0666cbe4d1476c1ce;
 0x22c68a5cd419b439a367b742715697ce0d2e09a481dae8751d7c7726837211aa;
 0x2063328c09ac22652283d91a52d9851b919051815bb5ad070ee015040835b157;
 0xe78527a4658f58dac40430d4ddc9043ed3cc910a8a0e30b03ea904a781ba8b6;
 0x1935fe3bceae0bc5b8a13b073b2678048252e77d85f393f84a1bbf1911b41bfd;
 0xdc76ca0df681fe5c3b9ccebaf864ae495c8f92b48bb3d9d40274154da97286;
 0x119aa817917a73d46dec3e58fea0eb8ebf74041c1b069b1a83ad4856b1809ef7;
 0x2aa46d04f1238c646746e8df5bd0cf9dbecafd57d5de4f743fdb593379ff138;
 0x190f922d97c8a7dcf0a142a3be27749d1c64bc22f1c556aaa24925d158cac56;
 0x100148238e0ea61c5b6b81fba32193d55597904d4b1220500edcac81ad52f68c;
 0x8243c72e44e0114151fd9b102eaaa569fad5df40df83a1b52accee13fe49fab;
 0x156b1e5836f0f59be75c7f198a5d153ca30f0b79882036489937fa8c3b6d8323;
 0x2c0e264b43ed6c4b0c36fef6aaf1aaed9091f35a830550ac4364d602bc9e9e4a;
 0x534b4de30df58163e970ffa0ecef0738a9fec8c0ec4e7d9d15a666a16f45c07;
 0x4dfc3e86105970cac41059c73d5f2ce55b16f40cf638a85521ff270c6e11e29;
 0x183720d9443c6a59364afe5312050095e335b211598478c7b005249e89ced914;
 0x1dd461fcefb3549ba9a151df4013b323b1183ebdf913126b53003e86c08d99ef;
 0x2656efdbacd1d58ceac9a0e79d35044753ff9b7f6dedbbc6d8a48fa48028fb5d;
 0x2ef319b13362ac4e82896c082a6fd4a64b9cb25efe1e0f5068deb6fddf95d02d;
 0x13e976b891949cb18b46fe1130d4fa1b16342e954779fdaf98258da7192b9c91;
 0x8c80492d0cc609e181c3f9d8e2da90f68390facc7e468d29d49ad9257f55c28;
 0x1aa3c7c7a08d082afa7fb91c6f1c9f989b98f9619b56dc62c7ff1e18c6b72c86;
 0x1d115ed240331ec2adbd0a398df0d4dbbbf2f6392bdb03085e088d60d7f02ba9;
 0x1444e0fd467ba09ef9c1c6ce9a80b4e7be755d0e9f81a90f74f0ab7d110015da;
 0x3ce99d4bd9007aff4e13c2679d14a31d6467b32827e68f234314d3013266217;
 0x190f922d97c8a7dcf0a142a3be27749d1c64bc22f1c556aaa24925d158cac56;
 0x1129b914cee489016fc3ff8d20e2be4c9abc873041ba82bb7e7781e976961b24;
 0x21dbd50af59bdf352310dc018015a605fe2dfe0e8e65ce1feb72f2972b985640;
 0x25a5291beb01d9f13ed31c588755e56e5e6158b2f46341c86eddd86aecd52d7f;
 0x8de172c56eebbffb029ee873bff13163cb2d06caa46108bae1dbb2c40d22216;
 0x1dd2d55f238308639169dba6066e0922ad620678106ac7a1091b7f7ae0d3090;
 0x189191a64c9e4d960a7f281e378669034e779be7ac0cdc6e4fee4da0659b04ff;
 0x141fd736c823aff77ac2f28632342c25d14a649b026ef03f36961bf4eb85d4bb;
 0x113a24d1bc9d10e47f90f308781ddcc9b9249d95bbacd113d88d5a6ea33721b2;
 0x8f0b7b38b133684b73d01fc731f895bcb30ea14364715ea92920501722d81a2;
 0x1bf14ce82aaffec31f46bdce8d22f3baff0f96b8bfa00499581fad99e61f6076;
 0x14b7be33a41e00d0333a0917a729539fdb90ba42f12451c63de66fd411f6e379;
 0x2107e9e2811d6ac968dfadd3ae015e3f71f87d0c5d5c5ce4f9f7c66bc92a3931;
 0x9e1397c5f39d763040b82fc2be1a64262cd5a4d9f32491ada436ce437bcfbea;
 0x1d1a01986546a0812d3a4dae34ab33abe9cedf2060a4f654c7cb05d1298a03cf;
 0xda3f22ff498a9cfef80f63e2c92dbd95928e85463777018a0d3204d1e50f38;
 0x25b74b90af9818fe0fd8fbf33e539dc037a45ad9f433bac8dd3717b64600b622;
 0x190f922d97c8a7dcf0a142a3be27749d1c64bc22f1c556aaa24925d158cac56;
 0xf3d58dc69226c994ada311ddd4f11174b51c490cf3fdd93047540be437cfc8c;
 0x1d948e7f1fa4705b5ae3e5f030a59ef966fa374f1d6bb87fb74d57b76f2b61fc;
 0x224176ed89ccb581b45f6afac435d9b2fdf08a0f2622a5a20c2ba4ca8738fbcf;
 0xf5cfe8147eeb9451b966cc087d2a9927396a83cd407d7f22afbea6ed6313ad5;
 0x1b73e95446d5beaad0bb2c324a27dd0fdc5445ea8a553289a88cd540a7a8a633;
 0x1b0f4b75472ab2e5ad4482742bcedf3b45d90177dd52680bc781786ea3e96be3;
 0x2e189fd270377427f98adf8a3f49917ebddffe7716ad08db78761da20e671fa;
 0x7c0a2036465c336f0fc397665c86a87ca0173ee19696b8fe7e6075283e5f0fe;
 0x2fb5497d60412c8bbc14b961d96bcd9d2cf82a25da250d7860453dc0c36d3760;
 0x25aa324c8bdacb11e81d612e258814beb13dd01a7de07d57b721a6c83101233a;
 0x29266b9fc1cca7e41d3c58443362cce77c81557f56e3b2a9a0e3165f38fb28dd;
 0x1557e3cbcfa7fa080014f6ceadf2ddc22cc1c6debade1eb605d0cc2755268dd8;
 0x28ad3d8ba97896df26b3281b73de59d9d3a055cf84e24bf4b7cfca4a6f18e1c;
 0x27692be22a3100758923b4b09be3c0e1ca34c62eb2875d4ca2e95199ef57e13f;
 0x26cb523869e976355b8b2ead6493c3b1af3b24b9f619648976a925dbfb9c2520;
 0x2a943b5d83171ed1ba5b2d0151f770d05cf117e28c8a2d0bd07901124b7a78ec;
 0x190f922d97c8a7dcf0a142a3be27749d1c64bc22f1c556aaa24925d158cac56;
 0x24917421c163008e468b59990ce9c9659723c7a143eeddf00b22bea911a23faf;
 0x20347f9b860c7318d8abb5924973a6032790ed146dd51c2b175890e67c7c14eb;
 0xc7b4b3d63f3985e07d15f46bff54c7f1382c7fcead2fc4d2732369ecf62312a;
 0x16c3c15bfb090d3c32b6783b8f35b56bf1ed17cafab462123eb872e18f40bc84;
 0xf4bf0d79b3a4f157a77cb759e8c3a950c2bf08d3b37e6e2252feda118dfeb6c;
 0x207bc2820e9268ac4529e9415d7094f6c4a3dd32c21fb6f34a6721806e60a66e;
 0x46d6e4942fc73df5a5c24e50a1390fcd3971f81416ec30338d988421d471e62;
 0x25d86cb7ab23b7d7829d52fb3d3c2dc42ecb745bc74e6e29c00faf2eceda60e6;
 0x291e27d656977488568245f7d60e5d31f7993b3530b6e7a5d2ecc5ed8bfcab9e;
 0xdde8d80231232c0283b7ad84aa356bbf7a3e7605dba21f29b53fd949cd378cd;
 0x16b9bca3f4757ee5bd884c08642d294730db13f90182970a962c956d5ded06bc;
 0x148e1434a77d59aafd26c76dfcd0d9dd58709b43c99173ceae6ddc899e39d810;
 0x23e38e3fa1713fb566e00717c0a22fe7e056067f7f455cf67c239fed5313c484;
 0xecb380bf60702c006a2e0b413bb060a7dafdcf4d8c736483da381315d128380;
 0x1504e0be27d971001c9c52f6ddabd8839fbf3cda3a42dc01c201788063ece2ad;
 0x204cd425d4fe74aa1fc3966950209bd6e9966aa7df1f515e5ff4eb504623704c;
 0x190f922d97c8a7dcf0a142a3be27749d1c64bc22f1c556aaa24925d158cac56;
 0x26b0354a46c4b6f840abef50577ae0160c403ac2ae154cc44dd1b3ef95cc9a32;
 0x76acba1cd92e4c02cec66b997f2136e03c86a5099967b8d2d6c3fa51ce470a6;
 0x1b9f835efd362eced66b1b4feb359a5a292e5179eca20536bc05fcf71ce8b0cf;
 0x1554b5740239a036650e957cf54880a05ffda13bd4a40b9946d1454b6e5ee619;
 0x2337f0f2350dcf2d2c4cb2f2e3c8cbfe8eac44b18a4e7df6ab9659c6d3bd51f8;
 0x2f70347a3e263a829f4c9524c0528c57aad8197d74f498c96618b82d6e38c750;
 0x2ae047c01e6b790967c9af15fe9700bf12a32cb4742c75ec4f2264355251b598;
 0x12bdad753525224488f0df2411e45b18e6d99df86b64ee5c2e1eaaa26b6b1165;
 0x7ed14a9dec030c79ab897464c9c31e89ac5d398e5fc2330ebd747dc62704e80;
 0x2586c2f08326503a7ccc396ada19284c6381f5402a1ddee59134036c6f9f4c85;
 0xe28de3e58815af816aa0e449cb6b0b68151fc3b74c8844b0433fb556e13bf35;
 0x15ed9ae17b48708404c20e204de218462f5c1de7a672c0400b1a4a97d82be2fc;
 0x2897a3c61ab7e1096d59db7d062d3509dbbe5288e8503eb723a783668f39363e;
 0x19382e0101202bcff4c8186a39e4ced12ada7adcbc0d3d535a37fd8e4e65d6a8;
 0x1dccf64cf1043efc8ff525df9a110883db70b13bb644c6567c0ed56006979547;
 0x14f753284093a5bc753e6e4516dc5f1856c363cde9ecc95745dde82f8f475dfe;
 0x190f922d97c8a7dcf0a142a3be27749d1c64bc22f1c556aaa24925d158cac56;
 0x47ce0768d3b94501b69470f61a3279af86cceda48efc0aeb4f755ce355a8c06;
 0xa838da94e6aa2b7e3c8d24fbbd1abf9fe09cda8242afff691d57aff64a307c7;
 0x2ccf7207714857e1b96f90a10f6662a0a161fef6f8554acffb454b475cad2249;
 0x2c964702e998844a760e735d74ec7fc17e793f656653128910e08a1c48b27399;
 0x26c73fcc286358f8a8c45940e32da21acecd2723a3e6c00003b875972e7e4215;
 0x2503bb71691693c6cd6c045d3f40b4cd2885a71adf5348642d80b44b4274164b;
 0x21abb0f3aa09de0569e24a9adf7863bd965ce656e4ee30611d0f063c1b6b1d49;
 0x1e6c18a3ca281852b9738876128c7d16d2fd27789043907cd624471d1356d10c;
 0xbb323797079be60788e8c257caa1e1e9b52b8f58128eb49dfd8d7595fa8275c;
 0x16ed4d5164745fdda2328ab28d0ef0350a3bb50589d72655d0e0d5a8f1dbab81;
 0x1719e6626ea03d94441eddcffb00dc8e76767224986c45f5f8bf746f72e33805;
 0x20dd2444d1b30a7e45a076776b4366f04e9c5d1b32a43b260d706f646a098db7;
 0x2276006ca87d973c1f5841a3b63aa9e6a4f8446a8a0ee03e068fda23a8a2e0b1;
 0x2d3e7d6feeaad7f3c8700e6293a0d896028d4149d57c219935463621fa77998e;
 0x26f15d4ba4736c73750ddbff4a7d9865f06d5676e449e9d249d3dc9ea62053c1;
 0x3636803242973ab91fef85aa46df13cba4ac9f6537aa3730c0da88b9d05c751;
 0x190f922d97c8a7dcf0a142a3be27749d1c64bc22f1c556aaa24925d158cac56;
 0x2ef01bca238ea43551e5857e412427af1daae81b8d9aa0c33bf392bb9e71f123;
 0x3030333648057d1d46a7a3973031a86637d6cdec3559bc12fa3bec6c0aab01cc;
 0x24dce91bc3df505f0593715987d3e6bab8f1847e5eea91341a9d1e83bfc39abe;
 0x27a2aa95ce7bd870fda385fc945d76269a9cb6d64b85f943430c796311d03868;
 0xf32e1ed6656688b400c42da52ffa8fac2d25ee877612e565f9271c1cdb216e;
 0xd69d7d99a58af860357adcbab763a96d048806bb1b3352c3ddcc0795e6bfc0f;
 0xfca01158c0aecddc404d7561a6d4ee7c6e7baf54eef93f1b4c72bd9468d8140;
 0x24f65dd1622f5993f172c7a803a71af6d9936a45fcf2f11c65a2291693c409c0;
 0x23b6c1c4a9697834526084cc56e8b53ab3ccb20e06ed7bd94e752cae13e04650;
 0x6b0b0674f9e70ca31b8658df5a918b6aa90ee4da8272d7ad50109ab73af2372;
 0x119ea3133debe120feb5b0ff2128b745ade6329c228d8c93ef9ecac933de75bb;
 0x28fe0921f3e250bd0d74df9669ece211330111bcda65ff19fe8bd02779da7686;
 0x121bc322c37b3a84cfa33407bca08421c76577f4ed5009151ee61de9538906f0;
 0xc6c6d133c64df4a3f148d03064ab681f6754192023f96e5c660181bf6708e7a;
 0x1f357b000c8ec106142c05d7fcb45bee3ca8602aceed83c3254d1596854d8e9c;
 0x2c635fbb8a475d22cc9388f33298ca3286d55e529d8167d036cc97e28b5c1109;
 0x190f922d97c8a7dcf0a142a3be27749d1c64bc22f1c556aaa24925d158cac56;
 0x1416e46669e99f6376ed9f1b60b4c1cbe2c13f36ac1a0961b28c0a4ded622be;
 0x83b993a01c06914fae37498067d1cc7575d4d6692e905a76c01012829848e35;
 0x7d66eff962ec6ddaeb23a84cb8fc53fb2435fb0779fdc6de042af8cbf653e;
 0x243493ca2e9aefca93b6f729cd48e89c5b6977dc8b9f128e80f2181a0c9321f9;
 0x25315cd8d5b5f0935df3ad290e18c8fbb1aa8a200af1b3b7acb784f2b1eb65f4;
 0x219e9f27376ebda36a9da6a406a6c2346e6db6c35e36390500ffbdd24c754013;
 0x2784f770d363c088139614dcafe4e82fec4aff60cbb9420b2defa1e5ceaf52ff;
 0x2ef0972f7624a2c71c7339890b350f716c7fc3cb884c48df73788cb38e8efe3d;
 0x2638005f1bfa951f04d3e6967a19ba68e797261d015fb0b4a200084da0520420;
 0x19952bfc2b15a1b7a44e59a4f007076a56aa61c9cb4fec45f42301ef9157a095;
 0x21bfebd7f0dbfa952f62f95d4475c079f623f56f67ec13f29e51fea4b142befd;
 0xabe0cbbdad752e9c30c665546f1b68cdd2d556f659c98c9d0c4048cbf0ba4d4;
 0x20c4f2c291c5f0b15e54fad44d549bdfa06e8405141d07446ecea299bded58d4;
 0xc703a5af22bea77a163ee98e379877fc276a2e60a134bfa6b3e0f3674aad830;
 0x23898a43fb970529f4c12bd16e98f891aed64fcb59738bd5c2ef1d7f5b9bd4a7;
 0x27de205e3b4f798811873af0dc39f91c449bae168ea2b2ca268f0fff421969d;
 0x190f922d97c8a7dcf0a142a3be27749d1c64bc22f1c556aaa24925d158cac56;
 0x34e0217aaa3133ffb88fd09bad59e44d8f0e74e1a64c86f3e9aa4587000464d;
 0xf0d2954a3425d4ef6291aeeca8d1e1927250f8e566688bf01f77206b6a0e0da;
 0x38ae6c953b05fde8ec1997151d62106c38561a6563b7c5c42c3ca3f254ebba8;
 0x129dae3e6abc9b3eef8419054977e8ebb35956b5da4731f87a1558b93d5b676a;
 0x43331ce5bf13e212c36bb6028ea5edc909d6807630483960ffd1e472333de8a;
 0x6edd2bca6596515c7bfa7f82c123947366efc923072442cd0d6cb3cb95b6590;
 0x218d39e5cb24a98ff778833ec9cc9c97154a2f0dcf576e36841e61f2a9d53c10;
 0x7babdb5f969df1056dcd1a4d25ecdaab931bdcd410f51443221f43ee9ad60d7;
 0x51f51c6edca7ad20f95cbd07ce9c5c51918dd6639ecb58e2db44f9da92ac45b;
 0x18d0cb9110ed2c13ca697c51731265461aa40cbff3eec69770c471bfab8547b5;
 0x151c0d100750fd3fc64ac7ca148c41bf2634c161746e664b6403e1d5ff99edb6;
 0x1badce073db9156bc6bc0b05a5f9ad32826ff80c20dbb90991c59b84f1887631;
 0x1d09611b11f20c357da69b64b7f235ea79741583cf177a43141caee3928bc88a;
 0x15903ccf8bd20aaf86dc7a0c1919a20b2beefa10ee9373ba62a75da5db50cd54;
 0xa3ed89f4229594227e8d35c0f775d81daef83cf50f6daf6c92584dbc86bbd7f;
 0x15c5a6fdd9b6ba06ec2cdeb9f465fb29a83a9345daed49e0c27064b2a745f832;
 0x190f922d97c8a7dcf0a142a3be27749d1c64bc22f1c556aaa24925d158cac56;
 0x29c47b21c3c1399dcde464739cd972c2ae7dd8511ef4dc4ab062de40904cd041;
 0x5d20c3e118f7e163803874435eb8c4f939fad669606a0f8823155b46636b40d;
 0x2a8adf7b64ebaf6bbae4363b8de139b047e49cc258d86927cdb17f64d7a76365;
 0xcfab49644bb24735309134d8f1160397b61c23766c13afa2f67350700ea184c;
 0x978c1e24a56e9f48e04a00ebacf84a971bf524a94ff82c9fa6cf2a4145ea323;
 0x1e7feb08ad0759f1632751fda2c80347296a181f33553bfd11c84e3b99e4dca1;
 0x1636f1c4c6be9b16647fd56e418b432d81dee2c09c00d14df526a491d03df083;
 0x1d0941c7678aa3814c49962f80f06a3b6ff48c4563cb563925c87b621392968f;
 0x1ba792f0e7770d294979a396e2c55b21baee98d0be48705b32f831f2d09f470d;
 0x1adfb90be5993e8a8e82466fd94d2142e05c507c38a0095535894369079e2858;
 0x1701417adcc7a63515f58d3fe4840f96d7b87646be925abf5831c7d9f6839e9a;
 0x16669c07129defa028d468884eec4825c1852e6ae60f5acc4a7a7754f9383ee;
 0xc030db661bf66032b9e0abfe88cc482f134b5f39b13e8aa20b540d23a5cb4d6;
 0x6c29b50030b9f9653c8cfe80928a76e6ba1fe5385109b7e606ef07634d53130;
 0x158eff715b637ea2e1c4312cfcfc154d3dcae6d2e240826e791dc661d4122a0e;
 0xb7414bf9dacff0d87b4613d9bb448ef0583f07948cb26d86963b0442a478865;
 0x190f922d97c8a7dcf0a142a3be27749d1c64bc22f1c556aaa24925d158cac56;
 0x2fc5816a8a9d54f1397ed6dcc705505ca28a50d608f2d6b0351d133ea65cf8aa;
 0x24d04d2b53f9f94b51e0300c6bf97e655ab6bb25f790365c64949876fc8e400a;
 0x12c2d385c706f78b68d132d1677f1c43fe555d3d9bd6622de8dce6a01aed702a;
 0x2cfc07b04b7ac6bd6ff67cc6d32ace4717cbc56974a70b9e3dda54b1741ce3e;
 0xdbec9e92d14512f3a95f1bd6eb87e7684fd099d747641e16956e281834fcbde;
 0x11110cac8dad45362476f50536e03d139076972f5e03db946753ed0034ed3050;
 0x17be085a196605f2b021add82a2fefe6c062bf2042537e054642c521dda6e462;
 0x2d30434c0cef5fb5dd60f6b52c01556819bedd08f87f0c191941f95b833853d0;
 0x297804121986231c72d5f3db2bb23cfc41d9091b7f085eebf0905f59854ad640;
 0x263cfbe2843370e8f2352bb41b51d59a8f9dd4a39552922021dae9bd777d64f3;
 0x1ada1b57547ba0b44cec18e94b273c02af369be58ba4ca5dddfc0c54c6d952cd;
 0x1a022e3c7f181a5af4ca6b68ea1e8636ad7a51eb2e49779fea2abda08058ce2a;
 0x1a51a742b5e2a8cb02194fe5442fe8160f887d71a8c624097cc751e6fc9e106c;
 0x33a3c4fb2a336862528fe456e4b28417f0cd5b8d702fa598648593cb27ff95b;
 0x275297e881159b1ff115beb9741fefff245fcebf2267fb7788bcfdb710ee11ec;
 0xc4330cf0545fe0d4d56dcebff69cc7564232b0ba94e58e879f9a838fa43b50d;
 0x190f922d97c8a7dcf0a142a3be27749d1c64bc22f1c556aaa24925d158cac56;
 0x7b613d8cbe7c7e104e3144d883270530e6b3190606a2df92791fee2f3f0db30;
 0x328bb8607f89952c7a0e199a914abfe679afd366f57160513708a57b0bc0665;
 0x2797d2a42bf2c3f860818f92783ee5b77ea5c8ef3ac3433a4ba8f8934fe40e7f;
 0x233e6f522a14ca24067c5c09affc7b53af6c87776525bb21d9058d01fc106af;
 0x390562c095c160aa786394027404bbd6a3882cc1118cc8ed82307c6e8d80084;
 0x17106e1ac0cfcf36e9d75f64a39807c812cc85b77e3c5ada491629f71d978f6e;
 0x1aa28e48122d0a44733a370e5031375a8c9c648cc46dcf3344621e6cd4ca5c76;
 0x18f6e768b9bcf25d37f90fae8b9a4c5cac181b9b05c6bceb922d50d8444bb79e;
 0xfa9340f079ddc476b10060bfb852af827ff712c5c9fea03f62d13d0c670d988;
 0x1db99f295b05ab42a946c2c3a5c73b225ba99ee53dc906eaf360675867efafeb;
 0x97578aeb43a7d6b1b10240c0a6b9b771d65b7c5a3a5555226e3ce45de3d3477;
 0x1974c34d88938d66ade5546a726dcba9bd76c31f1b4ee763af03f8d5698f4a87;
 0xe25a828aaee6f1168bbd9ca2c177973a8f20f4d8bf3aec06a0c24512df222ce;
 0x2e13ee7394e626ffebeaa09712936f8402400971986556871516f2a0eca9057e;
 0x20be54787d3e6d7e91de4a052172de99a251cb83be6fad47ec5a56b053717254;
 0x2019386dbf15958ed2efabc0f81184a6710e0f8239e8932e25827ccaabb750;
 0x190f922d97c8a7dcf0a142a3be27749d1c64bc22f1c556aaa24925d158cac56;
 0x1195db45235e0b286717bbb0e7fb7f4bd5f1346a8d6d47dde45513baa490207c;
 0x257be62b59d6f54c021c27f0c3c0a7ca3222dc5ecfb298bed986f1b6cb74f79;
 0x2fc61e8c69f1b6a89a698d4bd390f1ad961ef1c979c315fc069d1d3364630829;
 0x4ed6dd96dd4ba79b9474bfe10517c93ceb5a6dc5b95497a71a38c42c4171dbb;
 0x10c8d7d4846014d1d37d7aa27311dce9257ea1de1700a7175a03b358f12c0dd1;
 0x7f833418697f43d68c6792ed1b6a4274500d96c2894313f43d9185129ed01b8;
 0xaa1fb14156f9db59737b23efdaccc40d8f609b346809f66d96402e5f9a2c102;
 0x1a3b635b05a022877abf26c5378da756752882d30152a75e75095a4992926de2;
 0x5ff6852ef2c7807df8c68cc1fb842fe07ef08892e6706f4ccb3059f1d80714c;
 0x18e93ae4b4c092b271ce21881f133bb369d09e3726967ceb0484698a6cb02374;
 0x5f1d71fc99fd6e8dd1a4ff1c6fb4d16aad3445b2c5b2698a8ca995b3ec32fdd;
 0x260b2c665cf863248a5c9a03fc5ec713c1d32dd3bb17f3a6dba7af1690317514;
 0x199dc26831d1b81e333ea797e6aa2e76ea2e6cfdd888393682076ce77fbd4cf3;
 0x1fc7841c3762549185cf197f765c50f4da97358c40cb69cf74940eeb165417e8;
 0x3dd8db3c33075dc724dab7416f943e45adc39e147443ffcbf3fbed8068089fd;
 0x1415d87f2ece25dd6da8a9b56a5bdcef4f235a1b676ac4fe0ece8bea54f0d620;
 0x190f922d97c8a7dcf0a142a3be27749d1c64bc22f1c556aaa24925d158cac56;
 0x173e973d92b03e8f7cd54b5dcbd49e5c93046288c5bd8ac95f711e384807a40a;
 0x1e9e9e8f087fe7eae21b84385017d6306c73ee4dcc5b09efe1f91b9df6396353;
 0x2cd39e6fda7b0a75926254d1b4bd27ad6018ea559290d2041a6a1cd485026cee;
 0x2babe32c6ad1c466c0923e89242ff07997ad91281972ca9690ad77806c79f9a8;
 0x1671e3aefead10c1eab057577cef2d003653275ea183f956583dab5e6717aef6;
 0x638040b4e068d6330e2073b9042e25763872c4564b413d1d8df3dc5271cde9d;
 0x13a1be086b1c130fc9b0377bf5f4c7ab4166b34dc1442af15bd9ada0b316489f;
 0xe92a08c67a64c7e267acf28a048035d8d702bc0e49b7157132781f3f912c04;
 0x24fcf21bb660a9465b6a50ea1e0ff6c88d463e5c14cc82e7f333bd8cd9e9da57;
 0x19c3400c22778ad2608cc33d103d7558b909f2bffe1128945021cfa3996b90ce;
 0x1804ddf73341fab213bd15ac4fb0b38b210038ab3097df363df15449ca092955;
 0x2d030e104eb695f158216f2d17baf589c6b7eb3174702acffff3459faa369209;
 0x2ac28b5273536d5520dbc0f2d1ca6225372569f2c1f815eb0d98ea23bde3e0a9;
 0x132369e44fa5b49f309bdb51e3f76481bc7151112c28ee7c6058d4404d326aab;
 0x1030d8dd6355ef0e8b3bd213083f0540158a13dc059335b0a68471c1d8f995cf;
 0x10754be6667d0c88da8d27c8d885c68c2ec53e66879efc8664a313846c8db7f4;
 0x190f922d97c8a7dcf0a142a3be27749d1c64bc22f1c556aaa24925d158cac56;
 0x245fdf24ed7cac6d987a5f1098a3dc2094e8445ea8a34d409caa0de9ee8833ad;
 0x2ddcd4b1ef28429efb5371343d7c1aa34394b214ba4d3786a72ff4a260f80341;
 0x9796da1c54e94658988e1e47f2ab2a18fb54bd12c0f69761a11428d2bf8060b;
 0x2b820079829572e4737fd84b55e00d69b9842681762d614c4cc9f4c83dc7c88a;
 0x2a2c8f2dd7ed7049029ac58e2483bbc92ca9deb979598179962834099a206d0b;
 0x2e5131ed99601233301a58544eb5b390adc2aed2f7bb8975f4e3089ba598e03d;
 0x6f800a70d479c89318ce14ace0c1f7ded913cb3186aa67acc7290b35f941c80;
 0x848edf27122e8c897ece8ff31c76e8e3da4ec246480e769809bebcdb4680146;
 0x3032a7d711f11783b0cfa12d0a9bbaff62fb9d75cbe50aa6e684f9285d55840a;
 0x156bb4b89a15827370ed5326bc516f90e80da2b33bfa976b4c9a26f4c0bcb5d4;
 0x104b800aad84f2de01925253de1300447944ff027999bf3a113dfe28236e707e;
 0xee24634e1374e506d3186a10f60315beb8a311ca69d595c0afa0e4dfad5ec22;
 0x886f6c8618d45654de796ffb0a718eb65e5236deff84adc493e6a49308509bf;
 0x303f792b77de056334bf4b95c535b224edccc1d65b28e52d569695fe0a86f7e7;
 0x2ce5f9bdc64ab48b32e5ed411be107b280119255d976673c14ca2e70c76fa68a;
 0x26f0252f0b0b6f638aa04dab03f6a8fe7875a84fe5c6763aa9443faabd36d6af;
 0x190f922d97c8a7dcf0a142a3be27749d1c64bc22f1c556aaa24925d158cac56;
 0x895eaa7421d5c92db73111875ff0e97d1f1cf13454c8d0ee65ae0c86cb9f0c6;
 0x5a37e53d3c5dbbf9cd972b637bfb018efcfa1fd5cbe8b5dbf9f37608783392a;
 0x2151abfa55e801a5dd55f82b711f05b3e61fd9c94dc77201a9e62c89091da8c0;
 0x1df7040bdf6398bfbc5dc0bcfd52e2cb6acc1e32ea9eec40e1c14a173615a901;
 0x82d9c0993ae4a12a039c11aad12743c5f5d286c648a89b4342169aa4100b9aa;
 0x295f9f8fa059d54d4b582213965eabc5ed6f785e4aa71196f6238be2c511bd11;
 0x11489075194474f063993741279cea5cea810bce027e64ad900225ced81b35e;
 0xc308adc9b0dea53e1c37e06d0576f4ed39c2aea66bf429ac00575a9105112b0;
 0x1c8ae9521d6579b43520c3cbcd712b3dfbbd2b1543d1564f7d918c6e330e08a6;
 0xc69ad644957599bb3eda1d9f831ca67b021b33f6407ff2e56870e7ab3d5a569;
 0x17de4f74815fb3a0f45728b381e2ddf7c1157e5d65989ebde47f8bcb88f36836;
 0x1fc13b76344108f12af68f0bc80c99577f09a266368f0e274794a3cf65b48d17;
 0x2fad04c4a1bf440fe56076df74e5c30a58a6e26fa9da0865bd0374b6ae37f4a2;
 0x20766bcc7f359bfe765ce87998097a7501d7924730fe7325aacceaa054e2ea5b;
 0x14eb221ab65d0dbc5edf6a2065188ea9057f935d028f7ed14729ebdd66ed5fd7;
 0x1cade81c4d562aff84daadd630392b735b948175c064ace958e0c789c9d93bf;
 0x190f922d97c8a7dcf0a142a3be27749d1c64bc22f1c556aaa24925d158cac56;
 0x19b64914374910bacc33326c70be0a8518e71f26b4e1aae5d33fd5dcebbb1f44;
 0xec087bc39e5058e0c5c1432b20c612537441be0107ed759d3a9468ada975dda;
 0x25f6ade6e9833696c4dbc19c765ca2ced09f47f0745dfc850efd26e3a8bfc5f6;
 0x842f674f65a495938dba020f22a476840e0591f179780d72c00153ddef5a9ae;
 0x24b3232f05be57ef3c4c22af9cc37a73f0ae40289fb0fa880630f7e3d00997aa;
 0x2f4b230d825a682520ac0b5326d130a24bb89363318961ef5f65391b8e7f6bc3;
 0xf1644020d8a6c0dde5068f18ab196d348172aadcfd6391c31ff1b54f513509d;
 0x73fd850ca9561f8a645c9e4af943d372a4b8620b78bbbc357a97d14f531797;
 0x284f86b9cce13fbb6fd660d8e52cf27f7bf2723a494278f3cb0c3bad0574d104;
 0x16bee52d1d6d362b9430ccf4d2f1afeafe3572ae4eaa03be6af6f1bcc05de855;
 0x254cec1178e80740cca318d1b5db37b5dd23fa2c44abb7f1535200618b9ba0c5;
 0x113069cf767ed4afc61e592e98a63edaef98278c2ce59db109c94ef6dea9cf;
 0x2829e1532b4fcdb2df9104cc23b3331a1d51c7d0da9b645a4a43dbeaea77d229;
 0x24a03c0f7b51b6e24a889690a3341f55deacaddafc1ff871af6fd6a76dce8bee;
 0x24a7c2c124131ab37ed62a0182114a5dce4ab7e62b14ff632703b23a78f391a0;
 0x19529e943e466da82e6bae8f1750de8620e060306d9df5a9d20a83a4b68fc09c;
 0x190f922d97c8a7dcf0a142a3be27749d1c64bc22f1c556aaa24925d158cac56;
 0x274c0f68f679da53bdcdf9c11393c34ef8fe59cdeeecf859d4ad53069a88789c;
 0x1c900ca5882b107a3b8a8938140b127cd3ffbf539c9145f385cea5e7dc6978f5;
 0x55a3264b130bb4316f4503af137f0d964b753ba575456a74581b68c6789df33;
 0x290033424503055ab2e6b8093a758db0f02dcfc4adaf26a30f467b0e8aa1af13;
 0x1b415d6ec7893774bf9a598a8496f83a5422861a044211e0d525493f75c7bca1;
 0x2d5e6a92650786e6ab35f3a62c5689a0288849d1eec7ebf89b9a6df75cdafd39;
 0x15b1c6c75717d38e94265523f0f6491e22d8b79a791b10b21139f008651e3037;
 0x1f929349fb5222c4a6f17fde7f0aaca6430b6785cc5f65c3e1b7842c338dc1e3;
 0x23034bb8b8618de8c8890fc8fee6422147545d11d45e41ed6326b767ff099cba;
 0x2ab706c6d21e887b5906d4db350e41b176323ed39f88a75b80f1eb2680169f69;
 0x4c1031dda5e43ef325b33a80e6cd32cb22b16ad324fbd90ccf79c1f7e9ee062;
 0x1d663d31705eefca25d29b8894223a7daf06bfecf4e8e0bb845682fce0b1a41e;
 0x18c97bc6dc2ee1c3d66bdad7046019b6d4aba6592823a51ae2a8052824c6e332;
 0xdde410729932dcaff0490adec752faade582e2eff9d05896da43fac32e1ad3a;
 0xb12de1270d788dabec1456611485a6841cdfe411a09f80c0e132828568d8eab;
 0x5194088cb1b0f39c5b1527bd0a3ac4d16c845c2388cd22dee75544eceab640c;
 0x190f922d97c8a7dcf0a142a3be27749d1c64bc22f1c556aaa24925d158cac56;
 0x2a2904f92bdc035f347c6fb6df54ac6b482a2642dd8e798f9df0915fcc86872b;
 0x8bc0f22b597fa12cd8189c5fd0f79b2b10d6c65946b287890dc5f594761d665;
 0x2bb55a554f9bcc5ea8dbd4d5453e188122c66c507fdd08d0589706c1335619d4;
 0x2471e91078add335f5c48457785ef1b469484ed697e2e9f80d0fc73852492508;
 0x2ccf72b7324cbdd4a1b980d883532ef2887c798ef446408e885f8cbd14ac42ac;
 0x1c3b75aada78c1b204a35386f68e09a8ed700bd88685d0e38cedadfbd88a583d;
 0x11164ea9623704eafef86bbcfecad592597038fc1b097380effca4502577c733;
 0x4b961c368270196ac2ada2e66e44a4440905eff5b58341302ceaddfa215f691;
 0x39dcd1dd3ff8d7fe019dda64104e9bbfa1c60fabd54065c85e727302d8335db;
 0x90f27feffe276b6c1d77f6a80d2c25680fb854af9ad1be11268064e735060b8;
 0x202922769a226e1dea3c39d791bf28ec93639c7937eb7be2c10912ee896fd3e2;
 0x163bb1b115962019e41bd1c7cf0d8783d4baa163dcbf6e25d368c543f9560a5;
 0x255dd24ea1b49972007c3b74fd98c3ccc682fde58858a2073be4b90b39e57cf8;
 0x2be5aecc70e89fd7fd3e2683bea0ce600cf42759ec5941f0746f126b11beccdc;
 0x1584587c91f57bbdc41e85ea3ac8ea67ed261cd8d5014b424a1dc01bac478b91;
 0x2131be5b4387d226c22bcd102973756cd7ff955452e9eae429107ab244294b14;
 0x190f922d97c8a7dcf0a142a3be27749d1c64bc22f1c556aaa24925d158cac56;
 0x254b0e91bf714a1b45748d756729102fdab89301fc89d029d5537f9226e042f7;
 0x303c21aa2f173c290af9ea8e0a10f7858ffab7519185843d2049a22946026b11;
 0x41e6ecfc8a13cdf52f9c21662906f395ae172f944c7575073c0eee9962941f9;
 0x19eb35e2795098faffef9ef5baca33da9ecf94d5973c0ecd25e6899630af7a76;
 0x1142d22ec011a94a940fe203deb1997b64f780bf35d06276644f98e48e2c9ff8;
 0xfddc36dde84e16a5c2f631470943ce31e4be6305bca6e5c753c6186f1059f62;
 0x5b14ba6526be3dcc17bf7d609a42aac1adfe0f449a3d9374e0c22e26b2c2362;
 0x16152ab0a00c391d450290ae825cf5ca2769fbbf2e7eb69f8764025f68e9ff5b;
 0x28cc90877e4cce38fd08c1af95cc3f885a5c5328fa0ee0bc89ca190694d8e484;
 0x2df5ab9a480bba00072c401baae420c1800155b9f7d1ab9b31e976ad800929d1;
 0x12640a01d9b60560290065a3fd812afc07a6e795408f988071aeedf22ab75e66;
 0x1b2792d807f55ebab5f4274d43ccdb9d23c155b8b9f6df8694ecc6f67e20028b;
 0x16c2ea687479d257e26a655b5c6c27bc1f455eeeac28c3b3ce654bc76cac38f3;
 0x26da8fd5fc478751e06453b0ecb6cdaabf231a58e603ac4ad14717d70db2f27d;
 0x14f3a3e34739d7c727b010a5022d9f0f3e035e91db3aa947e3ebe3366eed27c3;
 0x366141d1115aafb084cfa866c52ef40a5fa57fdc8e06fc2f1e46b967c9c6615;
 0x190f922d97c8a7dcf0a142a3be27749d1c64bc22f1c556aaa24925d158cac56;
 0x15658afd9b2c13d4bc0c637cef9717e943c50f83b67c8676d67d17050494e5cc;
 0x1f318dc3e277bd895a88dbd9e3c4febd43cdb9064683ffbf1be9e6f9b2a71669;
 0x141cdd5f2c18d63eec6e82248935eaeac4ef044ee76cb7ef0e9259ab6f93daaa;
 0xe4b254bc67d3857f499682863a0f95b76e9d5cc9fb7c2c59729db203050299f;
 0x2cc2b90a7bf9f3663b0f41ede34f60d63a99860760ed6027fe17d4fa9eb1b396;
 0x2e0819713df7c7a942c08b3ea50add92e39214104120803a5806aad10234abc1;
 0x24164a433840a28d2615c719c716f2f7c01f7c3854a327da6c5db75097fef1ee;
 0x272543f2284921391729ae58db1d9db0807629d9211778b0756ea7e4f88297b1;
 0x194af27987f50ed8730d267dcfd98a9a284a3582cfb7356e3dc46bbca1eeed6a;
 0x2044ba55f5e44c7069590bd2abfcb2b7b163d47e0e1bf2e2524c0948da4b1a37;
 0x19d37fca1b67b7ac626349cbf2928b9457863637baa2613b494d9da18cc384f0;
 0x1230ea231084e3641817b74662caf5732556c3d94a01d209fea1f6777ae6cca1;
 0x2f924a42d4d9446cb488295883fdadce8debda5ac727901eabf2d8627dc6d698;
 0x2da745785ae0d3eff1a3281d7537383abfdfba2031a880acd8dabb3388a4ce95;
 0x72fa635414d1673fab8d057107792b3039c033d924cc0b1530497c2c810428;
 0x19db329f086a50781b0c6eb2552ba454db2fcbbc125a5ec41ed2c0e840bd6774;
 0x190f922d97c8a7dcf0a142a3be27749d1c64bc22f1c556aaa24925d158cac56;
 0x1ea4f3fe9b4abfce9e655b05c4f64a0849003f9b349bdbf349ea2a249bdc945d;
 0x23c87854133b5d392742dce58aa01cf376e3983dd939634c4fee6326db21db4c;
 0xbc4774e1e80349b9a704c01709de843f3b20a75be630d1b6c6555adf3bda042;
 0x143ffd0adddc79c51edcfac6ffc1aa3d99ebf2d55349df53a54842c945a82f55;
 0x2b813146b9e70f53e3cb2549a91e68963928c40e02c08729e0fd3f5941b3d602;
 0x13de9ef153bd22f5063cb42abc061c09eec510e4b694a4e9b9bf6de56cc2f206;
 0x30015dd143c80d113c290bf94ee9d7b10cbfb93959e846751c3b3ef9f8d07490;
 0x2515eeb903d6537674e4fb3cee0b3a4c5051ef3cfc1a3d1dd2a25f4ddf96e05a;
 0x20ec5ec6cb5f91d860925a6341af5cb15fcf4b2694083235ebc7ea78ccf6421f;
 0x77160d3b99920220fa591a49f79c56a282b6e368cd1419ef09632e869599f14;
 0x2dc01f61427888cb2d5ae9d8a0499cafc03945dbf111727b1a2cbae73bb41b0d;
 0x1df3b805da3b583cc8f736372e7b16d3d0407e634b6cb7ebef2b168932194147;
 0x224a6cb7f4e964e616ca5b0f23c77859232674745d32072096bb9f12131f0075;
 0x7f74f0de535231775307017a09328c7491bf0fb7ce86ad5fb589594154983fd;
 0x2816d118f59d3cead1cedf5cc76a1a87829b2d8c1fa10adbb2fd4eebc0373b26;
 0x1698c0df24945164067e5d0d9b0321a757818a0cbfae969e28c76dc470974440;
 0x190f922d97c8a7dcf0a142a3be27749d1c64bc22f1c556aaa24925d158cac56;
 0x2d878d0119485477be8dbf01a3aefa927a230065cefa169e34cdcd8e97efee48;
 0x2af377e1ffcb6909a07fb9d03937ce4a8fead2190cabda6baebd5943445dc0e4;
 0x110ffaae8772ac77a0fe26f368484344ff681843ef616c6d73e0dd95d5f1f3e8;
 0x92cde477438d1a1335b795d5a5ae15d0949877c734a0eca249865ae30a4ce2d;
 0x2cb1dcc78144adfca1e53dc251c2e4084970c941855ee6a772d30dfbb1a6448b;
 0x1e80f366933f00562d3facb54015e72fc4cf46897bd71f3f3015bb3f8895231d;
 0x20c5d9b2e153f4787a765096aa7c1f47f990e810004ee7737c211150c40b79ed;
 0x12e81ecb7ef55b86893278ce37c429400af30b34c10b0acd786fbd7b25c3469d;
 0x1cbbeabe0289ed5942f50531a647530f105e72d1f912eb11539d1fc5588ce1f7;
 0x213c4970760a5882661e0e818f43450b8cf9e02dbd0046f27ea4d66403ed0ee7;
 0x286f73e14f72495fbb280d713b0161ff695a21091150ee6c9ae96eddf36e212b;
 0xd64a21cebd1f59801551216c693b181aa963bce18a7f4439f179e7105836296;
 0x14bb39c836c00f33ea9903dba3d3d434ec33deaec35076eafc1a4c5a01a417c3;
 0x2ca5b88e6bb11f61e5dcc2a4ef664b49a3801009f1eb74208313b7b04d59edd8;
 0x2c44af041ac89242a8bd751d96ce0f86eddf8c312e6b3127c53e6017c0d22e77;
 0x1466d21f848850fbea559a4c76b1a00787f997c1a4a5bd40643036ab684553d7;
 0x190f922d97c8a7dcf0a142a3be27749d1c64bc22f1c556aaa24925d158cac56;
 0x220cecbc247151bc202a81a4573f923bc92a2208b17e1c0bf2dfba0de4fd26da;
 0xb71d939b546f609ccb189dcbeed82a34d8f2faa2c597a3b3678369a471d817a;
 0x2cfba88722ad37fda1b7ec9489a96e09e88bbf6649c8b7014bdde34ef18a64e0;
 0xd0debc0f0d5dcdf74f2192da068f87631213a52aaf59eada0bd59bb99ba9510;
 0x1d202504d57a61c4cd6bf007e478d9588d8e6585ebc602227379aaf25bbf6ad7;
 0x251253367a3e28a691d3b6fff1209f6cf0e03736928725dea0f9f0824ae70dc2;
 0x260c55e9c06f653d9202d03f1c184fb70df2f937ad157719685863e4338fb4be;
 0x200b2246239844344cce8854c24c9a9b14e438de6a3ea445151882f23168fd20;
 0x2e3e47be40c7216d9db75470bd8193c3558ba3c61c552bc56dab2713af62506c;
 0x2784c2b142bf3e8639e090358a1a3c81e25f23edcab18001514c617cd0918a5c;
 0x125de24f4fbc6e879b4039af38a1d041e6c38a270b3b9502e10c09f149445d66;
 0x29740adacf9d3689e443639c25e367b23d07d690c9ea8da6e12fa6443502f903;
 0x2bb9d36c36a107db72deb4262776967926f923df9c96cf07708d5659cc04ac81;
 0xb3d9827d898e83333c83c65818f7fc1761fcf632d1b5f03ee95085b518dfb67;
 0x10a6e860715f76969d739bd3c393f1af2c6d27f3f8c21e101dc8cf7a515eef7e;
 0x2d8b0a8bf894b7d607d9a49dc6f8725431f69ef0541debd9a41ccec4b7c1853e;
 0x190f922d97c8a7dcf0a142a3be27749d1c64bc22f1c556aaa24925d158cac56;
 0x2f127fbd7f50d13e1ed144760d37a375a507ac1f0475fd1fa1cab401ecafc7fb;
 0x1577d27a4a8983d54a364994db2232806dc6a3f1ae005960adbcb4352a88b9e2;
 0x52914cca13bf1c8dd7b8ae8329393ccb24dcbb32c4625ea2ba6cf935be4f231;
 0x3ae3cb86c125ba7e22c68fc612f2928a961ba4967a5afc661ed2c32de93fd30;
 0x297797def82244ac873c64c1e3b0586725adff324eeb9b15a9b476823e6179e1;
 0x124a7a8c6e44e7135b58fc2b76062171b5054af0def6044d99637adfdb5b403;
 0x1122cd468ae5a811791bbfd990f5ef430eb1e1f1c6f7469e5746db7ec0426892;
 0x2409be076f6bbfe87a660f865fe5aeb4abf064c12bdada933eed7824ba271cdf;
 0x300cab922f89292915e01a78def7ae323501694f122737b9ec6739f123278b3b;
 0xd743547bd321fbd1b27ebfc7d52797b2f97323d25f1a374afec19a1630ab63b;
 0x9563550bdacc55218984e8413a1226c22b38c12d69ac16bf6e3f952a787a504;
 0x1985c8553ee8e78bd1c65b3f375fe99cb0c14d60e69fc6d205cc54bd173f5204;
 0x1bd7b38a27edbf115143764d25bdac7e921e83b29964101b494f8075a7800763;
 0x2766850751254f44f4e93db5621839bf0eced728a6d2b8cff05b0fcda945e;
 0x135b92c76b52af013119fdf43e9ff79cb40208b2c78cccd727781ff1f456039e;
 0x19da226a03cebea345c9a56cf3b4c7e6980d613471b97894a7d5fed6f3e1c743;
 0x190f922d97c8a7dcf0a142a3be27749d1c64bc22f1c556aaa24925d158cac56;
 0x92f4acca2e0ede5ba901916da9e1f67bf4458f8495eea238d17332da63aa71a;
 0x1641d2d820f16a7e3f48def116b6cd078de47aeb782d8295c5f505d89a9e4ba;
 0x85201a2d77102c3d0c63353013c47c2adea146120e8d6b3e2319d8e63ba0cca;
 0xa53d758d0108ebf22dace7bbbb70afa26f400485dee9e4e7f4f7ab7d9299677;
 0x262d9423cd20852bc68c46fe5eae59a81d1d814a66a638c8c00127fe2dd98761;
 0x2ade8678e1c4e5a88001f70873e9c28bb8b86bc77c1712731057b410468c8f30;
 0xee8ff3fc24bcd3063e995a4cbcd34f46142c9f3abff0f8e46a86795b5b46552;
 0x2b825f9cd4585ef46a5da502209c12464c824adfb18032718bb37e4738cb3292;
 0x1ac8101da6ddec552238fcff3932ff2eb40ba38ed0c39eb5903e3adccff791d;
 0x1ab95f20ef0daa5ceb85f821413b046e9fb8a70b61e77f8f5469711f508f178f;
 0x580d8b79189de04500aa5749909874f8b5968c9204d6511e05ba1a3953362c;
 0x275875a979f31b1c8db47f6dba4c553c8732aa37c4c74d7fe9f979274dc27c95;
 0x13d84732bb3b9bc97162533644a7515d91f08d970584510db56caba62dfa0d66;
 0x4d47f94ed591c3969fee09e23f392dcd0831126d621ff5a07784bbb5178e876;
 0x268be50015a5f4676f202ecef15e094130bab5822d63d777374c8a0b9f4f3832;
 0xc44a75d5020d4aed139ad7294f27763391f2be6bd3343691ea6e122c4356fcb;
 0x190f922d97c8a7dcf0a142a3be27749d1c64bc22f1c556aaa24925d158cac56;
 0x212e7e2ecfce78922708fcaf276bbbded3c0e2d8804d66a13fa020749c48ecc0;
 0x158fa860b8267b4011780eeb782c4d2b878ae2615e317b798961be28a7ca2462;
 0x1def7622e54639fd40813cf1bf8162198af19e07d88a0d42d436368745e3cca6;
 0x145ad4994d42ca69669e4c78ef8db06461047f4976dbc5ad4a6cf2c3ff78bf57;
 0x197d0463b10a21649f25670cdd2504ba58621ab912b643293b32a515f50afdfc;
 0x23398d180006069a68c7742caf4c669b87742b603d5ec75c13d2a835103a0fd4;
 0x1e0258bd63687d7b17c4fa3789f9fd82108a3d38ed4458e50a071c4b622866c8;
 0x423f6744b5b95af35bb9caa720088b05e7fe89176569010e96792e0fd06a28c;
 0xc50436db6d99e5a8933aef29ac83fa2817395c577d0ba3e0152fd383542088a;
 0x10a22724b783a4ed75e92202a6121ad76eec88c3f6b6d2b0cd5a2f829d7caa37;
 0xf49f1ad9de4f057eb3acadbe2279d617384c0f594503c616c8a1f7c05fcc886;
 0x2141c09b30eaac9f355f49e98905435476bfa52fa5339ea30fc48beabece0f4b;
 0x15c1c2b59c45dfc274c111fbcc2b79bd7440d738d0b433518ad3c8ce8d064ed;
 0x1db3bd1d64fe08c2dae2ddaddc2c339ca0402bec8b41b74d74998aabfdfb7bfc;
 0x29a5a2015c3c31790000852191471c62442721881310f01e2fb0b92157a6adaf;
 0xc8dc01d3f82d41bd600fd0759bfe0aa674a0b7d089b0ed0ea9127fd0847832;
 0x190f922d97c8a7dcf0a142a3be27749d1c64bc22f1c556aaa24925d158cac56;
 0x2a824ce1fd2a8c476123e3a989bf2d6709db1ae25b6003b35f4e9a63b414a58;
 0x12ebc9623cf8edf6e519f0b679939b74b2e4b4097992d2ed382afa7dc08b484f;
 0x16be2e58e7c791d1a9edeb27d648d697ac592d085c504517cac06dcccc9b80b9;
 0x11f10e1bbfb29ef8257b3f13add23550576bae71f723613ffadbda16f76e67de;
 0x1ad4858514fea633d11ef8b8460a55cbbff262b90a7704fc2ae9f4de51d43328;
 0x215f4b249b5c5e65fabe4b485656a746d564d4451568c1949d28e35624cd5d60;
 0x1fbad1d2ea18f2f77723b3dcf4acde26751b05615c0af9d607481ae4155b0b31;
 0x21662871d695f76be370b37b3214a511fa6a186c5c856af4f830950ca601a9e0;
 0x23ef880efe39676ca81b90ff6258371415feffe1514a33fb3b944360cebab527;
 0x2821c241fcaebd3a0039501eb930cf9a84760a177be827540ba0f3c7aec6e354;
 0x146be2228a62f0b2678d113c1e9bc68ec984fbc98358441882c3223c5d08ddac;
 0xb88bf45643cca07b10d4c2d229d9f4f8186e5da1b4a7921bdb81082d525ff22;
 0x8fc9cbeac386e14a1121a09f0ba01977c6a4b444528bf675ffa538229fd0b1e;
 0x1b50431a74a6fbb3653b07cb93b41b31f4b8e8f0069132630d85d6247c754a05;
 0x1e406be857f7f834e34e4366a64203a4587e3d15e3fb68fce7cd1648bf281d9b;
 0x148eba772251ed3515118d4b1cd35d1dad67cb449e93053aeedf6c90725deec4;
 0x190f922d97c8a7dcf0a142a3be27749d1c64bc22f1c556aaa24925d158cac56;
 0x2e04360710f57315981909dd928e62c44c44034647842dfa31526f83f4e02671;
 0x2aafcfc0a678286f879baff9f360018f642f5dc0fcdd24efede6f42ab41f3876;
 0xc056d71fbe0367362ee12d47779dbac6784d03b9effcfdeb97b91c57f65e433;
 0x115524aab9917d448fef5342d3773f10c7bc33b0fe015fc39851bb6afb542fd7;
 0x117e6ade5e05bc5efbd21dd42adbec70159c427bdabafa5df3bafe8d48240958;
 0x381334a0ddf5db66871f8bd943e4a54dfd1f9b7d13c52944fa0ff2562250fc8;
 0x43e8c4009abbada6a3350bee3e92556368245a5aac0c1b52f2338e1ce1121c4;
 0x2e88167d899544487a1cff38e196dc25b3b8ebd01a2289b382c965e11128cb7c;
 0x1c308d8fbd04e1e349b4e0ce629b3fbac322460faa3a3731112d44c3a4db27ae;
 0x34ef7e4e0ac0d3d85f4adb5bef214c96512accc1c0f3a11470b493d4a6e7946;
 0x2b6f7ec4e66fade014011c277952b270953966e9fc9def4bcd21052f62315a76;
 0x2a8510585ae4c162b269375af5bf36d48824b1cd4d323125f061dc90f06fe318;
 0x19008b99b3e1da588b1094f3110f9032354d1aaf9c93ca9f1dd0010f974c3fde;
 0x2560926db4543ac9b3ec4ad64b12021d232944ba8ddc47bdc494f5ba051f65e3;
 0x29ccea21d8edecf6359058c36019960b8e0cd6e0878f835879477fa3ba09965;
 0x22200c2de87d7552604e1ecc47c639ec983525fe8484a3d24655d5dec1a4ba33;
 0x190f922d97c8a7dcf0a142a3be27749d1c64bc22f1c556aaa24925d158cac56;
 0x2ad7a0d2da92e10ea6eb68264ba502da9a0a5b35bab9699cbc29fd8fe2e30ab1;
 0x20590023505117aecc066d41c1adbd5ad4cbf0e9b8dfeaf9f9e8799f07534408;
 0x222c46e262ca50113017fcf937c68bc5a2ce66216ece4254ac3d07fdacbff44d;
 0x18e7420a44ea5b1e13f4779818b97a2081be214baeb62671e0dae86c4023ae13;
 0x22ea7ca068c59b65cc056374a848ac65417a6f02d8caa04407d1394ea1ba8256;
 0xd3a07b74e65318c9e1879c337057cc712c0f533ba49c1c626d1b7ab155936db;
 0x61d5292ac1d8dc58ab73a0a48f6f631262c6601fb7c0b48c1a16452b546db6d;
 0x5833012960b055133c9ba572828b91414cd7ba31d68ef46f5f76078c3ca1841;
 0x2f2764c49d1bc1427e519f7690e301a620a62a89bd44dd766d6ca181d02eb406;
 0xb8a8d7bade0db2c62bb09b73bf7444c087ff5e82ef4df25cd0f9ecaa12bfff9;
 0x1bd2b4b1504d8c446a5125fa97754b345cce5966a6e0ece3586933510071283c;
 0x87c0b8b7b9ed1a7f917066f04927482b71b00120114f6eb57c272cb26ab0ab0;
 0x20fd707a8cc61d2a031709dab4ae58bf5032a09b570e7497c3415596d3d5fd24;
 0x1a33b2e800ae297e35eeaf4e3bd055dc56e533f4441bb24bfd130b924d71cf72;
 0x18415cd52a959280d64154df2c538469ce854f7561e19b7d05235c9fa478ce0c;
 0x2e6a310ed3f24d835969e401ff1df8540801ab6fafa90e70e50a8230f334ae66;
 0x190f922d97c8a7dcf0a142a3be27749d1c64bc22f1c556aaa24925d158cac56;
 0x2fc4ba3b1f7871a2df1a801b29d1eb494e3a4d072b6638da905d5fceefd93c51;
 0x1162c765b187e20f079a417abec80c369b6e1efebdd9a6bad7577c1722b597b;
 0x9a3571080ab89c41d2c53279c9ab9ced52efb9cd1526d24dd58b31771a75606;
 0x2fdf9f81c2ad998f2229e64e084f9149ea3f0948cd928136086120b68ae69651;
 0x178e83d7f2f9ed92d3d783287f25fe8d0d28bef0cbf2315ca03da314aaeb94bf;
 0x278d681f603da186319befa5d2c5567a9fb52eed6061787cefa92b27c28a64ee;
 0x108fd8bc50dcc43af4d73686abf8fd70b42245c1af2edcf11090784a24aa5fb9;
 0x4ff765c30d4e035bcfbc196c646541fa1d27c05d5d087e01c03ef11224b78f3;
 0x607cd8ff9b889773c9eb68b8a4366469d470cd7c6004106caae95c10c424419;
 0x1da524cff60b64856dc1f5dde0ff62da7b182da26908f6ba6e590adebf91b40c;
 0x22f33eaee3c481e65801b761a72832908f066fe21dab5fa5ec1d4c6e99dd6dfc;
 0x75f84e9c719bb8de8e61083290daff19aaa4337454e5ba804257787470f2f54;
 0x2084be9a57e9adb80303a8dcaffd4bb77adb6815168b36a1d363b38425437135;
 0xb303449f1bf4b92d2cbc26ab34b4215b6dd7af010747a705b2a6e3398882922;
 0xc099bc68243537203f97254f08dfb7efc09de8f96d72f3b3e0aaded45e18b4a;
 0x1c5fd9060d4e0d999264429a5004c165570bd1675b09f977708b1ca48e616388].
(* poseidon_bn128_constants.rs:3059-3738 *)
Definition bn_c10 : list Z := [0xe1962c232fd0a6bb54ad8962a82b9838cfef19d290a55fc49d6debd061cd2f6;
 0x1e1f45cff3e74168accd0a94536fca6317128953eb47d8d2d79b847b355cf51;
 0x1367eec3b20cb74953618fd9261047755ef7f8aae5ffe96fc8f7d9a02e37bd1a;
 0x2ff6ad40533afa2acb78c9b91650d7ccbd274b09f78c100479f3a4d72956d706;
 0x152c8c3d9e43d90ad8094831a74af8151fdcda0b18d7bd8374ffda68d1a5fc71;
 0x241707db26f96df502364d26712c7f465d0ac5597a309559b075406351a20977;
 0x15a4e4728a197dae6303d0cdd2b6d1e4114a9fad38a530bca6fd06ca1ffc1f56;
 0xcbfd63f363978c387d656e93f11e336987a68748c8f54f385887e64b1075598;
 0x1fb594474b8334f9aea6fe5e323fb0e0ac27d2895921ac64e93e524e4ffd25c4;
 0x5ac55361da931c1b4c560aa8dbabc8624ba225871bce224addb5af901676aeb;
 0x135f83314252585f7e011692cd9acff36df6be985029f226de256803ea704d78;
 0xa68f262c9e14d8a9ee116bf90cd7d65e3df561bb3914e314e3f43f167f5c04a;
 0xa8360a837d4c97b946633c353298b77d6891b6ce78e82a3bd39fb7e51193d10;
 0x136a21bd13b11857e0f7670e12d23290c2318bdac830154cc37330ccad9a3fe6;
 0x2a60989b8092f8e1c1cb0238ec85bbd6b8b659327a03e8e193c15a54dbb73c04;
 0x1b5eb81f143bf326da0f4eb95d4f45c8142cea640d33acafc8deab155f37345f;
 0x8903cf6b684826737a348acaa452e1ba9f9345de911f2340ab7324d0bcb47e0;
 0x3b8b717ba10035a12ae4dc40f4210b0f0529ae837766e1a269522105635d818;
 0x623ee7c19eabd13115398893e826eee211daea73f80fa53a22f8ce55906027c;
 0xbc8b24369ab76647fe0ea278c866d4d45bc3f93e8b06e76901bbe5bf20db5c6;
 0x1a327d5f540190e1c9cb1e31d857b5c51c5cad9f1ee126c44670b782d46c2f50;
 0x1087efac87bfa4807aca410a9c297d23184c05bb58abfd43a3fc2dd483380592;
 0x2997117304dfbb464b5cd4a4188aa4f6ccd56de9cbd813da270ad7ee699e8065;
 0x2296482e919fbd46f7a518155e72a55965596866f32b1f8433390f3e1f0e4063;
 0x2152d5f164ce09f6928ace2566bebc6109a4f62047e4747a051e29dc187525d9;
 0x1054109861b3349e419216f1bbe82f4a57823a77acb1deb6c48fa267ee5d302f;
 0x1772f4029540432ab8c6968b3739c3a241cda3ade13ece2ea0a0b157d65c2c93;
 0xc296afdb2e037d7979878671c78a5f6008d98cbf75be4e3ec3cc1d44e8459e;
 0xec85b22c62686e52cb79ab29a0181dc8e34ddf3167d1e353514ec868e729a5e;
 0x149e2435c20d48a3ec56c4e45dbbc583b85bd64311a2576ff352668962c21866;
 0x1d44140dcb4597c7214a6ed85bff1a3b5fad33fd7c530699bbd610e3bf5240de;
 0x3cfb0570f824856fbf41513be01ed3271e1c38a16f610a8097cd27a1325d4d3;
 0xf223b396423edc29d51e58872b2dab7ea3aae89517bc41957eac79ce9761379;
 0x1fe6dc2e6e83ab88e84337a45130963337746ccd01c2f2be100080be32a59520;
 0x47310ebb459fe860c954517249440d367c6efc5b93f70c410bc76f8088b4a3f;
 0x21858ce69a019e4cd46096a61790bf7e03e10e3edc1a2988df768498ad667cdf;
 0xda4f87da196dacc964fb6928a51f3acef042037db741f317b4d80a81cf98a8e;
 0x198eeea981eb256b4fa43f05fa4e1aec908e57613eefd35026358080e329bc12;
 0x11964efd21ea079340c66ad92fdb62b8a18ee08a9992f133a417d23b78cb1b0c;
 0x4b07b1960518122f5725ceadc0c1f060928bdf0f5ec42e16f8c2934877b4143;
 0x246f5fbb5f719b0896e07b4c23fcf1d24487b4c775983cea49500f8637709ec;
 0x24d78daede9327f49eba679539f85d099d6583060938cb052dce50125b01cdd0;
 0x23de932658d2f181f59d7234a67e174763ff790d3904cfb3dd10af8af4d8865b;
 0xc4f5431daaa994ddf5f3fe6b1df0c0c42287a38c9a5c4c758f72638e3bdb403;
 0x175999589895b6947d386d83a5e6f5faf9c6588d523c7846433212233f64d04b;
 0x2d54cef5e3cad1a80471bc6ef0c6e4e74c2e56886a31d79257b2762ee7ab517;
 0x1539cdc69fd93f2ea50dd12ebb0437c23df4ecda29c76aeb09437ffdbf01c778;
 0x2359a45452824ba97dbc050086bb910c12cee0a908db1c2808979dedc8f29942;
 0x880e5da2125b0842203bb98e5f24ae26228a5af5a6efd5461f634a4476a15f2;
 0x16110fc6c8167930bde230d5df954f107cfd0da005aee44ec5ff642872764c19;
 0x1310c844b70d6a5856f6d18669e532c2d6bd5d01e6a31e804d81a2f5adc63fdf;
 0x2ea868217a99a6cbe79b442e2152853c7330fd8de757eb7555765879fe42ce2c;
 0x29c5042471d909ee4813cd1a36e8eca08d4e0d383009f17c4a367a877a3df4bd;
 0x25e36eda0eab576075e88ada3914c29442172a027c6d174ce0ddfbb017d51dff;
 0x2d21058ec44674d8493e702aade5bdf3b691e3faac0427089e867f9ed856bc73;
 0x18d17c3835ecab44bdb8b67efe2acc71d39e9d3443dd0ed11d95045409a7c788;
 0x28a2f63b0e940afd2c78d00de1aa6fd6953e6d6ccc3aa3203b39618f5d698f5a;
 0x2635f5bd9bebaff0ce7614ec7843418a9aa83637910229beffdb91e23ebc10f;
 0x1fb8e8726525268018845f8c826b0e4d56c4e9c58ea92752d581d1a51702b882;
 0x87e2ce4d2ae5c93ea5611d50c313202a80c4b43533b49077fb569f837ea1fe5;
 0x788fa9532cf00f13c817f38ee1bab85fbc687998cf1c14aff5fc1eab115a7da;
 0x1c5c85c57a1f7587f8d2fcefc1d4e98c2741a019effbd4c50334b0c15c3815ce;
 0xc1fb832b7cbe0e7e11e8edc2baf8749f6ea0637b20e972a63315dbdd5be1472;
 0x229758a22b52ec3907f94a117f6639164508c77bfdbc679c1b3f876b46caf809;
 0x5e066ca1257d8d5edca65a2921fb5b5e01e3a2f0a2a3bc6622c791552190a2a;
 0x2b1a935a4ff16c2500bdfee2086d9df3927a358e8eabe75f6a70d7db25a31917;
 0x19a55993108088e03fe7fbc2a014509ce987f4277f729ba5b924d25b39e0669a;
 0x1bb65a3f9a4375ad926d44c188dcfe51b5a5dd6a7ee152aa6ccce44813e95db9;
 0x1f721c4d0db7592f9bda01fd1fbebc8e57452e218d8a2e19163067d4af128d37;
 0x2bd32a02899498a973382a4d40266dacae898a9847c2b33c2ad30bcdc4254776;
 0x28585b052d22283650a9139d6361b08ce94d17d7c8f6dc1d54f58589066e4a31;
 0x3eb34352610227beb26f8edfe466cbfa347d7950bee431e7165647bf1c5ccdf;
 0x1c1347ef418d657abbe6e4c019011bd34ddb207ab54a9b99f07c4044589e0986;
 0x4a8aa3b18263e171363e9396847a1933f044fac5f5b11f754e6feaf54ec4747;
 0x12744a063cabe92e2e18f000afef29c928585a03afac3b2f4c17141203944239;
 0x10af4d39a72d2dcb65eeeabfca40a08a69b274129704c021a01388ff8662fae7;
 0x1038c656b332e519f483d54e5222b34b35af12906d13652d1d8c6b0f509b27fc;
 0x10ee02ed1176804b7d43696eb87643b4fb45f01dd65889e5b65128f781d39d93;
 0x1d08ccd47541575c60b567fd9b6705de88248f9cc60af2343098d35d9e4f6d35;
 0x6bbf6e32d26e922baac8c62bcf85ec934cbdf6870e3818cfe49dd3a4c70897d;
 0x3ae60403f93a98370688100dcd87ad4c71ee529c4dcc3be32d6bc0621d42355;
 0xfd0f776d267dc3c01a377d217e33a255c39937ac281a3b0eacb58b1012393c8;
 0x2d4ab3b85ee6f55bc17d051fcef739168ae28b7e6d5aa4ac12a2dcc07b9ba6f7;
 0x2ec07b3fadbe296f9bd1fcd1758f95e6b922db7582068d76d552184131e0832f;
 0xa6013e37f560f540dbd3e9790600200777b86a577c2d2d83ec7cd13db319376;
 0xdcbc3cb4aafe08c62731dca44c843012265950e0796c73d8f9e53a767c7e888;
 0x198c373fbc6ba598020456f624dfc906f28cab915b70eb5568f175f842355c27;
 0x2a9515770f3053638e3c064f5901da7acc2510fb29f5f3607f8ad1256ada07ee;
 0x2d4154739ed8a6cf9a92e590812f15f93013163f57b8039773cf86348d5318c8;
 0x2bbeae4c716ee136c4ceef194e7985d46415fc130430a65b24e9f47533077d9;
 0x192b5b08320766f45be7bba9e9a70c0efc69afec2a75e4e071e6c8f55fb9ef54;
 0x2bbe0e0bbda936b305829e3a74a82df030d4fd8112aa7f169670876b028f0702;
 0x963722d8db532fc95cf2240a570cd7a136366dff544947845b6d487dc7fa62a;
 0x16010c0ed7a37bca9682ac858fc8d2c4af513f02d0f17dd306f05cd57dc694cf;
 0x24486122987e17077b026baa81e705e5d0cb76b4d92dd3ff54bbb813f3d09ea1;
 0x28da35a85262582b220f7262ea68c381573a918c10dd17e8e564eb6da113e5c4;
 0x1d3196aa6209085c34db2f0e2b3dd4bb6bb670e6ca24d27d90dc8efa5e81638a;
 0xe56fe4b7ba62dcda0d2f7b9de86bce6166d79a0a0c3c695341fbdb407b9a506;
 0x145fd47676ade5c380b90bf08020faefc8c3d270c6bd97f92a18ab94f973dbcf;
 0xb6704486fdd2a633bf9e40a5c5e4091e2d430c937306ab3045b39b8b74e333e;
 0x276747994473ba9152275d15beafe42b924de69728107898b4701a6636df3cf4;
 0x12665324c9fc8d246c1518e040a15e3a17c0f83f0a479571d8f61a47f3982d21;
 0x288c589327ff97824eaa3dff40bbcc9ca73f69e43eebf24b29cd53fa111cc8d;
 0x2c3b3f266f21d21da33e4c39001c7a703e6b93e047357840123f30724fda336c;
 0x1d089260f53d9b6d912460c6a9d9ff9df5a6391a492731534826a5575e8a7725;
 0x52226cd4ff2c85dc3fcbbfdcaa0ecad7125a03d533223c8667040fbfcf7062e;
 0x2712f9171804273a9c1973f7e87fae28bed9a833fdb70ed93dc6274865869356;
 0x276f2f781e0c9ca0424a9a5135593be95764a759c231199db5d5e0e776e15aac;
 0x2b21ffc3ba163ea61b7c0b717d519c64aacab81957e268e175f46876e9ac6f62;
 0x2f3c2b6874b81531b890a603be7e36ceaaed6c8a3360a868f18bf23736288c09;
 0x56721148d9a370a8e8128ee00178695f66ec5063c6660ff554913394cd5df67;
 0xe1712fd1798dbb4a2976dfaa085bb9822d2d2693983e99c76a556e75e63313f;
 0x26c9846c7ca0b8227b6eaa7634cfaa6c4a13bfa4710cbefe80befe5119c0b608;
 0x1ebb9eb479a644d25f53dab3e6dca08339f0effde9b7aad7a34748507d69a8ae;
 0x1611f5e2add8ccfe9d093bea1d55eac62661a9ac9713fa4c70895997441bba88;
 0x2462c3d5555611aeea4a146b8da50d30c419943c1aa600e5b13bc47a3810f63b;
 0xf376eb9e7de4c45ff508a22b34e55f0ffda026826a98b298672d81c826b6292;
 0xe7ff80c3d19a2ad98c8c52a5d19d1712517aa65826291ae6e75e0503c8b8a3c;
 0x2eb13ff66ab49a73aaad760f5bf271316f3f8538c526a1a64fa65bd3b3fc2d4f;
 0x22a40e530de7dddc1f842c9421192c635b43a6cb1f83d89ddbd3c56c2a512edb;
 0x2740baa318c02fde162c920a6245b0f2208f7d0ee189823adb47baffdd5ee21d;
 0x1965522cce8bd29b3ceb508ce40431f40d54b59c0411e5ca427f8c1c789d29b0;
 0x10a0db7c2b0969dc250647af0bdb0d99cea4285fd8a90717c2760232a906be7e;
 0x295486271ada3cae4cfe3721e6d7b0acf21bdca3caa0e020a6d88ead1f2bb11;
 0x1d00206d65a92466ddef22e5583661c68ee313cc40a01c090e5ccb118a1af13d;
 0x112222605052423fd6da21d95545d6e96878e5a6f43fb2666e2fdc5937971bc5;
 0x25cfafdb7df32a86f2ff44a32ad7b2fd9a60f31a44e5b5ad423ae52b0e3ff2ef;
 0x1a42aca3307df84a81ff5b9fbec011ac9fdaf3d9c73cdfe95011f7c1ac779d15;
 0x14fb6c4e0df0063275d380e67c251a29ae638028d8e6072a6e4fdff4e039a4ff;
 0x1687f501a8c07c9e43eb4ab2244914b651293807a28bc43d73ac4b5640445264;
 0x2d64ba4067ab898f7b434409319d7cadddb14182f613e46642919b43c89b8159;
 0x265e19e2a2bcff9489cb749daf9b77256e408f180cfaf05506e11a02d6d4b142;
 0x1120d9116a584ecad323cb8b8825b9e43ad16ce59c5e8bb5f11b4ab8e5ee6801;
 0x135c200f7c145c042fdc94ad5bd2e4661b0db889ddc3c24a207f5c7c4098034a;
 0x2f9d365d9b5f9fffc5491c0cc39e6b9ad14e4d8794bf76e66beca2974dc6c65a;
 0x2bb27c1a1e8452f317bf86a6384954f8609a285004593c52fdcffe7d85812df4;
 0x245f28da6986368776968d7e5da1763d38b4e1a5b53ac3b457b26d35d8cc553b;
 0x16047c3f4ca23c6f5daca5d01ebc6721a3d156ca4c35e0084903836bd12893be;
 0x13299dddb9e277b122240d08656164d15f8d15cc7483de7087e8ad96909c0565;
 0x1590dde29e11424a0e7f7d4b3e0fc7e412d092463cf9545b7c62260ab2d434b9;
 0x19fd60baa2486bfdffffc8f672ab64cba40b394f2818366c76d05b77e91e2b36;
 0x265828edfb0391d860822c4119b39ceeec02191653f95c7392c01725444ee849;
 0x23bda9a3c2e8bb1b227b126ea574f97ec7793cd80c62ca44cf8b2e415132bb1;
 0x1b770c804bfb918b1976e3357ab884668b0d2aa414e007ede000714714aa09d3;
 0x1d84eaaba6521eb866b600749069e6643daa80f7de10ec27351f1369a3729d13;
 0x73a0aa1ba4c1e1e982ef00539183ef648fc441be88ab1dc5315a0cbb401c9b3;
 0x25ac099aa85c9e2aee6789f2592258cdf5ca8c7b5739e267f12034f705797f81;
 0x1c1f0dc22ad54da9f26321b793e014ac1b853001d156eb590e6ec522e6850c31;
 0x103749ccae90e434a1d961319f96c744e04ec0f77c8c6505bc21a1194da6c14b;
 0x93c47c9dad5ea61c8566620e4f436c36ad00d046b252d2264d06d9a377e9c68;
 0x12d48a22d443711b05bba73fe7cbf5e0734df7ed34587f85d850a5158c0a274e;
 0xd1487ee7bfca46febcedb83e9dc73c33d3c099bf3c1a779334834f89f7da334;
 0x2ebab1e544f6ad4525eb5592152ecb46f8e0f70cc54e739f5ae4c48945e534a8;
 0x17260110bc0fa2d859a65a519b679cab157a6485e5062cafa3d9e8523543d460;
 0x14b60bb1b813533655b74d1948fafd94c73e1e0bad2bf3e7cbbe997c40c22cb0;
 0x144ca9b18104b5bb5a9d21d73bd957f373259539a163c78197210cd16c886641;
 0xb698540c0ab22734bad58e48515ff84520051215f5ce4915d80444032a3ba49;
 0x1f458fdf92a4c03bce2bf69dd3dd4e26bfc1663c187799bb35958d3613e25bda;
 0x26c0c3f9f2abd19392330ee93e2554abb27ed377481e2a2552798dc952a0acd7;
 0xfe825bdde1abafb480e985d6fa8f4c7ae9c6735f9be0a6924293d2ba1145c0;
 0x24deed3988546ae6520a6c20c7659ebd2a5f4b828182a30f5195674997b1f734;
 0xbbbcd555c184aae0891582c61d65195132ba14aa26fae5bca4cfa0ef71c90b8;
 0xf9f78d85dede378437afbec3f6ba40c8e3f674cbaa51f2fc53555779ce9aa4d;
 0x269cd2fb8c03936aa6e30dfd09c34ff786c83996e89f706c39cf9a673a79c8f0;
 0x40a5ed55c1541ad1431b2e0a5c2370cc0ab8cb2ab31e62505f799b0a535537e;
 0xb10db52d69a08382c9b0f60d53c586333018877ec879067a2f9548fa035b613;
 0x1e6cc5c4090d2d91f567237064c57abb80f1d1886a509cab6bc23e81767a2aa0;
 0x104f9966b6a892138319ca037d4298fae4fad5d09cd05e6e4814b752e51f570b;
 0x29d96f530ed5cc92c904d21bf560c82923bf6569acb90abfb9d68c495cbb9814;
 0x16b917a241c5e2a1941d745666d8adfedefb48f9cffc756fef6667439eaba1fd;
 0x28049dc8703e7eeb4ae5cb7eec9d0b9614f33f03beca54a67d729cff65971fa0;
 0x2bc236714aefeb86454cf972676c646a071e70959d53871a23a27bcc4a514b46;
 0xe85e3f0b62dfac04defe89326b1f1c9c57f95dc299ef95fdce2dd130b0e09f2;
 0x1576f55650e0dfa819a1273e6a0fa04c1f1ae18f1f841daf0ad5a235793b862e;
 0x2e6d1f984d90d778bc0e0990dbe6be66258ad00487129ab3438da90c9ec307f1;
 0xa5216c240378084d7410cc778801c590391c6f600a85514de1d5cfd2e29fa95;
 0x16af0c6ec857714b9e9e7932ac8a6b1b01fb42532e51e957c735e02403ecd492;
 0x7ef3829b21e86dcdbc3aa02fd246b8fa8e7e4c21578ef0584874d36de491aac;
 0x21cdfdcab1ffdac2baf015ddad7ef6fc196b7442e82b370a1187b484d5d62d5;
 0x911aa1ce608f4234ff3b9f35d9be546f5e7b94bf0a25f8bccb3535ebf1c5846;
 0x1c861eb01c4b335ecfdb63207c5167f2f2a2dbbd4c604df9739082c5db91713a;
 0x32ab5c0093afc059d72265152026bc674b6988489fa1922d3f6a130e6e98c0b;
 0x1dbb7c4e30b3bdb3a248e0118c9259c31b75bebbda8acde2d114311e1166b850;
 0x295721987b2a072f968216f69e14afc10ac7ce6870a1cef620b9e3167121e565;
 0xd848bbb53ea8c72c8ca0a933711061cd11c38bef5204e1987c6e0016cc87728;
 0x125437f6105b57329c045376be9801f150088384916ab57ee90e4df260533e40;
 0x16a6f85cf070a9343769dfbde8cec30d62500d50ee294167b0cfc9af4707ac24;
 0x23e4ba166e2b5a1506df9dd4dc74c7a30dfb79f493ade38be21c0a604073d359;
 0xd7a570d5c131bf78031c66c8ae5fd454ba9855fab92eaf9ca379d08e856414f;
 0x21793d46a696ee5040f599f482bd9845356c02e4c2b07a6450a1005543665821;
 0x4cf9f12178ba86fab11c12d690e620603525ff7dfcb5606d0f67f0a7250d0a6;
 0x1e1c8714aeba7e7549e08477b4365ec2dbebdfbb6018937f680d3cfadb5b9224;
 0x125f99c81db5d7e74be0c6e6b4476dd0e503c1c704b3c7d3ff0ed356f9a5bfd4;
 0x111bc3215b3bb2a5d17257fa73a77851d2a24e4804ad1ac6e652f0858326ceb2;
 0x9e73771faea0065c80653dfaa8bff402eeb0be36688343826faf639f684b31a;
 0x964f621946810a123469fce6b544ff61cc9b733033b632070d47bc9474f4b0c;
 0x9532bf9f11051f863a4e80679782b0732d663947390c12b02954918a18e47ad;
 0x1d14808c54583a620e6587c24b993b1838a0eb07395c3085b449d3135be322f5;
 0x9b88cebccbb2a0a18e2d2e799e77cabcb4a231123c303e98cd897ffad598d44;
 0x24ff5ab38ef457484493054c9bd3ec894a8566491a91a52bd788343c429d0a93;
 0x13eeaea2298ca24ee7a73162ec3a21d817ba86f9772bb68c0461d115535daec3;
 0x11600a36cb41fde2dd26a7cd4a98cd8beae0a04e46db399eec5c1d49020510f0;
 0x2c7682d3ee4ec3ce7e1f67cce9bdeba4a1f669f04d9f7a4bee13b3c97d3eaa3a;
 0x2d9b1db246b004e185b08c953dc0af4fbb7c7dc67b2378eff707507b2db06cb7;
 0x17f1407c2872d3810b7474bebe3711f72583cc95831301b4e3e06a3ca9628318;
 0x89fd58055d20602bdbc2171ae485ff48f205301065932bc9d526fe54d297f02;
 0x2779eaf53710f3a5848a8dffbe40b5f442a8a13c514ff97501fdca080fb3bafc;
 0x7d6c3ddb807b8634c89aef35615da73596e8ee1a8cab49d022f0bca8780ec15;
 0x1b2918da0b9beea69a80b05a151e681722cb66fb8ef1f7dd82939e991cd021e8;
 0x1a21a1409ddfca99e3c0987f97450840f958524affeb28c18fde739c8189cabb;
 0x1f9e67e3979195d368172267a6ba3b448173e2379f25caa137ab6964714d1fe1;
 0x7e57931399bcc4119d9cd7b2191793de0ee69474716b08008a9f68a428787a6;
 0x9ef7d4aeadf7bf593c5a79279e9e65578d14315df9dee07401693d199599482;
 0x285fe3b15f4b43269d4cc0183f9f75b0b4fe69ff170ac641b18c7fb105d2d711;
 0x19a7682bfecfe18fbab22301273895c1c4b9a994877dd778646e9dfd64f24dbc;
 0xab794b4433b5d0ca9f3f9236159ee7b9f112abe71d3a4d19385202c209501d0;
 0x8ff64f5bb9e3f8be81573117e011c803f69dc6a0970dc05118ab1071a28980c;
 0x2f0d454b49e0366171d95142230002d70f90c8c37047c6b258c07c0c9d0388a9;
 0x17b463c68fcba461e149e56eda9e8db1a4bc5c7b8289b0cd4286deb5c93554c8;
 0x2d1a83ac832e49280df94b1e27bab65faa9e21a60a48ef0f4557c03f9b7d11f1;
 0x1e182411560c80d7d4c480e4fd65b9997132a4ed29f9a8dc3d882209b63b07c2;
 0x4bc5c19cbb312941ba1b731f096349ae7624eca3b83be88647080f794d7fab3;
 0xf10a1319508c09aa4427ea79071da02dce4a1745e139e6949f99216acd8305a;
 0x7579d96bab793ef1f740713f70f3d2cf4af1d20ea560f48e6f8c04df64f2077;
 0x1fd8b55d0a28cfd009b298b30e226aa3d42433dc148318c99c4e32af13c5144a;
 0x2affd50c6aeba57687d824aeffa55c217f633d46840c928c0373ca46432fa731;
 0x2fc1634b69dc697b668fad3e89c88186a76e4077bf6d1140d8e428eaeb7a3872;
 0x23a53e514ab262e22eca7ee722497818c064f8f74ccd330503d7abfa85f015d3;
 0x86ea98e8a4edb6d8500bca03d53a03a22f69b6f132c99ecaf9e950fbf26c87b;
 0xf48915855b4d191b7c37d85e8a5d491648cd4e53f5806d499a8de87ee10f2e2;
 0x13e0bb95d9d3078c10ed2f731f57f5e9e40c95637574e95a933d9f2a7aa56c5b;
 0x2bc35b0c5b335dfc6f1a9362e5b389dafeb65f0ce5b44548280f46c16ff51feb;
 0x5b2ddcc86a8504b00808acbb4a643b169db2b07fc25c9cc3138467ca750b5ac;
 0x1750d1a47da211d8e8386c198095b83ff665b589ac278bca8c0fa01bfc683cba;
 0x1bb5321e95d1fba2b22cf4d75e2ea2c3643b85efbbf1a3b2cd4be0e7d123880f;
 0x2a4e8ad4dfa27652839ce179e0964cc4d4732fb55370901b3292d663bde41ecd;
 0x19b984a2d5a0323b956fae09b529bdcf455122c443eeac7ff1584bcdd632787f;
 0x11105f818cc27232a8445ff886ded838fe980038727b9e2b33436a55c2f9fd3b;
 0x2228205732fe6b9af281b5b2b5fda2d07f5184c555fb52a7f514c6c1b1fa80a0;
 0x20b4c468bb8e29c186e7f45feeef84bd857db85643aa798bc264519daa463fdd;
 0x14bcd2fd5c7392bf9d93e49b5855b5f35c717d4ce51137b8751b828386a7a5f6;
 0x161cb26e6fa48dbb05a5c3bdab4a1a524469f98b8d10181f2848029c795e0576;
 0x26d537ccd8d4f3e62fd0fac41c6a24c9411f4d6ddc03276bac261768953bd745;
 0x1de7d3df97d11a081106a4bd21b97603a76adff165cd40ac747ed49e61c611f5;
 0x29800fb0020ae18d4efd8fac1def5c7607af35f4e223904acc6a14d8c6d14ac0;
 0x271271f850f692a3503fb72124b583a81f3f0ea6789be3a56ffb49776579eb25;
 0x16694bf37fe421340b186cbc817d0b136f972c935579f2da300d8f3c663481fc;
 0x19ccaf839bcde3fb9764e57b40f8be036c1d0ad6dd23caf40f0c2dea764b4538;
 0x1345bc63be8e3e86d3eacdcc4cf142542e0ac660f6f75fe34d3c7f3453823d2f;
 0x7e733e36a63b1c54e453050ae43078c86a1803b9bc1984f836da9e5bde26cf4;
 0x67df85fc461d1e13b0a744c4f7894d3126d400c0f674115d764a07a053f6431;
 0x3c2025ea4ee2c19b2f8d8be0a2b90a1d2f43453515ec04257ae1fc6ce5334af;
 0x2cbf1dc7af58fa9adb8ba31b1930847624cc4f8f67cdd8bca3a9276c1f06fbb7;
 0x12035a5219b900dedaec32f62cbb85a2228a3e71b53afd4d2fe6b3c964f91fb;
 0x1b8c713c90d62b367382c0ceebebe29893157acd56e10755d10699928f3505ae;
 0x14475f758d5db01a2de2add46c405d939eb1af0ab36bcf26ff93e4860541dd56;
 0x213776f1e0fac855f958cb20aa090d4fd47e70fd0e936f751037fc33cf9c4127;
 0x2acf42c1eca1a093f10198dd5a16bce16bf8b21107724a94aff2f190906e6980;
 0x19194b68b898476596a9e2d4056e15c95a6648234abbbf9ca592cc2c53703380;
 0xb20a1d9a2470011eb2f8180215400b583cbbb1fd085fd53bdd1c9217cc5a3b8;
 0x14a7d1d7065ed6f6ad72a0ef3b848d76034f7a95d2da2a06433c6c4160ef9c8a;
 0x19142416e3b168abb99babc17ce6821d95a29a31d92bf74a122a8efe799f9bbd;
 0x2cd1571dfb32abe6e5dfec8371f8130cf77566a9eda06cc8b6466fe9e1b3c528;
 0x1cb1ebc4b42052876e83040bde7b380230f5f145f9400b5d4d7136a61c6eb458;
 0x5c4ab72cdd1de95419689661e5e735e15b3ffcaeca1fdc8669e73d8a6cbc96d;
 0x24c8da03cd8fb497e4f0450069b5d4deb102b64e68d5889772483e8d0e3974d7;
 0xde8195805706ff74cb251cfb0bad9b9e3fdd059d01a5fc7c705d60971fa4840;
 0x304ce8cb3cd5519623520a4883d35792256dca0c12dc1e855157a59daa4508f4;
 0xf36b586984d1959a79c38a0e06450edba003daeb792c8d4df307c55c9efa8b1;
 0x1a8325d55480646ac7faa3addecb2ec0ef7482f10a099c5b4656752e24551869;
 0x2d7f6744d06196ae0879f406814aabf889073505deda846651fafc8c20185aec;
 0x9205507dfc37672dd9711d7bf42e7de290b366b5df2367d437a82dc9e086681;
 0x1c22e9bd3f23dfc3f73dc73c9131e16a8b076818fc8823425ccb1b732bf5493f;
 0x1c5976233750078411d6c93680d8879596dfaf5f92d48fd4dd94ee5d29c51ca1;
 0x7cb86c6973abbc69f89d248d744147e26690a61b6e31d10e980137879e42673;
 0xc3c9880a8248520b611ee4df7fdcc16a66af45f52eb010457579107dcc99d39;
 0x3928e6de66d490cba3a1e3e3665123919938effa7fc4f8c9b31bbdee1e479ad;
 0x340f788573b536fe1e42c7fd409d367124723dda9c4b0f3b962e0137667e87f;
 0x30a65bd5db79f009cc1b3fac1ce464c4c0d543385252da017b116146fe80d82;
 0x2a42a802de9085d92c3bdd4086371a3f17ed03c08a2bc61b3e43e0539357de14;
 0x1549a1cb250435699b3a2467f83901128094446a6bba526d5473e8241b5004aa;
 0x30501645d7f67d6d4e1f64b95a344a85bc6a6f97fb361e7692c96cfd54a1d414;
 0x1c3ea369de18dcdc3378f61dd563a1aaf256982fac9ea0994a3eee26c1f5d00a;
 0x4f2d2437252a0d4d9ca4c1b01b66083c701281c233807e744910b3ddb971f3;
 0x132fe529e4aabd030412962480562c95c8fb3c4abade9326e1d87becbe1392a0;
 0x19fa107156b961886fb9d99ec13bcd8d0c4c544d4240c1f7f43c77c63f144857;
 0x2d5f91cd3cb552dac7f7843f60552bde86f45e8bbaae484c6b79ccff34ac5ee1;
 0x2dadd9a69ad146e65bbabfbaac3378af9c5540d17b9ba19bb29c48c85dbfe71a;
 0x3c9003074e450209212b3bd1622da61c71aba0e8a094a7660be1f4638eabc8b;
 0xba91729271f6b814378bf2b847490d8b06b46ca31cc5c4fc74c1cb04b71cf14;
 0xee583d817f1705ac7ac0b9ae042158ad0d5ef3672c1d13dc7dd794aa84f3061;
 0x1140026a5abd89c4012d2c43a478b52fbb46ec0861ce5b3b7c1cf69fe5c40f62;
 0x176ec0bfa58b3976290ac145954418c577ed77ab87fb9f8228175a9ad8e6f5fa;
 0x13e5899c46c14f7004fd0fd376476cd34aa7d3b13470fdc5232d56a3e59b47ea;
 0x16730ce766f65c06cb611f8d7f4fc3d53c6662ea12ca4502bb968873f3e14f86;
 0x165db0eb885ffed5f77a557b3eb21ef2d48b4a7cc6220709de00e61cd9f8f525;
 0xc428278c217c1e7e76e3110f7e1b26a9095e8c8cbc07a171714e9afee2670f9;
 0x2ef183424c590a0a5d3b8a639f37e4e77d10fe9e12327718b8ecc2b40a2e92be;
 0xbbbe09fbbfda7b6e06cad868cb1a389fba5ca299ed9545351c974e612f5fdd3;
 0x2f42003eccab3bff0dce2b22a8769a5ba1a0a6f854c73a788443bc13e8fa5ea5;
 0x59113aaf928acd9154ea9295a5a69f864149ec96f0409673be860cdc1edded1;
 0x1fbfaae77bc060fbbd03ffaeabae2cd4d3279363c5e4643783dfb9a5d5946825;
 0x25b3cef1d524c48156e9a24aa0d2c20ed32fb69b4debe1c12de50db246e3c805;
 0x15e6f0329ed4e44d0323f02744b4f6d0321e204fd38c99ccb72a35784b94026e;
 0x16e47f642bf13ce66c2c2bca01a2763d704b46de0d7c99dcb2b480707c1a3bf7;
 0x1d9f848cb9dfdb81cad62dd5fd43156e57c4ba194e32b421aa07de9e0a8700ec;
 0x70e206946f4cb2c2a7c5c7c0ca84fe53ffd884279259eaeeee00627dd985cfe;
 0xa5f91aed115950ce6348b0f0f001569243c840041b974e4fbdeaccf72b19da7;
 0x27736747795d235597047a57b524dd4c1ed0e3f42798215ba85056bea765540e;
 0x167c1d76479106953282f945c8d8cb72160f6310470a7f5165f1572d6c27ea4;
 0x1becd457d21ba094804c47c3a688734bd543b2e6d7cb51aec0ca89d6c1e3c355;
 0x1f43386fe739e7f9c63fbdcbb82bccdcd417338feac1eed42def7150d4a21358;
 0x2d091c358175583b32cb97c58168f32d83a68c99bdfa7c2008d9c454b0eade16;
 0x17257c5bc8dad57ef6f66cc041a1606350900dce184c312426065346dbdb1ba;
 0xb4adc03c7bfd313902dda678c2fa251522a92a7fc6e4b47d4f1ff98ea1f21c4;
 0x1af84524441ac03fa2d8b5b391a7c371f2d9cf06a09005fea6e3b708ccce2cb5;
 0x23ecaf81286336251a1fcc5dd44a4ab9fd3940a048e771ee4668830744a5a9bd;
 0x187bc703cc893e2cba22fbb598c0e778c2046adbe58b3ff252d7b635ed990c20;
 0x260b02db111d63998b6af09a81928f62cfc97c4f8cba26e828ff5c057a0e55f3;
 0x2f0232a9940c4c4cdd0e44e3c4785ced14ff13b5f871ce2f6ee35742ad050ace;
 0x50adc4d5d64807f730d0f450da5517479a3786a3bb2c8de24536a7ca5de2d8e;
 0x16ab8f682a4083d0f999f5816f41cc7edbce82c0d59bccaa89c254729440f981;
 0x1127fb2f0ca9cc953fbb1d4793474263a6e51b77e72c38b1147ef865415d4dac;
 0x1f6d04ad97f2f4b710f91f5226a8c55ecbc1c25af4e4ca8b76cc4fad24eec674;
 0x141be544be4c23b3625efa886da65e675b6799028d3a7a6dde1ed149faa49678;
 0x1bf785f9867194b45e21dc76b200325ce4bd664b7ce3699174b28c0fb3243906;
 0x24d9be7c32c7e33bf76816e19a3c1e4a887c9ae74d15a7712dae802864c08651;
 0x28a481ef8515851320db9cfde816826a2eaf994aef8a551a3d0022d77205ad6c;
 0x20573c158a49c54731fedb7c494eba7cca17975cb4a448c688bc56495907261f;
 0xa15b156592972641eef2970904de3e1334376ee64bf76db4bf5e7c8542c21c0;
 0x1b2bc4a3f3f448efbfa21a4e41d5d6e09b73574739b66eac27e65aa1fdb78c70;
 0x1a79a5d83a28bbc4c113600038135e86ce6188df4dff938155301593d4cc73aa;
 0x1e15e7f11ea36757fdcfcc558e7c6bd8c7cb8484388a2c95258e2125164df413;
 0x298a03bc1edd776ec3372c82ce73c44b3e12e9509c124459f15d9df783953816;
 0xacaed186bd21b6bf01884c2e80dfb84699e0bd83b7770d03b918d24a0129316;
 0x2529c4ffb6c39cfd1aa6e04800cb59baeaa31da43903d3385b2ab25864812963;
 0x19c47c2a37278f183f3b58427114139b3eb82c0b890c4199706ad944391fa6a4;
 0xd2701bdfa57cf911f1cd1fb435fee068caed685c636382249dd9acf45d4c989;
 0x1e58e36e0ad7b4bad27ac7f76d34ab497488d1661a444dbc07cb9c7219409f12;
 0x2698b2f66fb15f3b16a7e50cbd835a31fbb83e0b65982d7a7acb2971cc5825b8;
 0x1c3a8e3737856514071a5891b7eb286fcc836f11b629c12c9b61a76a6f6dbe2d;
 0x2927ce5173086473fa445d53172a05aa66a8f9d9a169f685c47aa989b9e0f5ac;
 0x25aa17d824580d6d533236412a489aa45aa389b3d3d55a345d35663a1b143bf1;
 0xfcf1112dacc31179819d66574a5cb8ded45003f76667d34c1d34153d8fca994;
 0x6032d6e50d059057d461477999efb4acabd1a9da592731a4048ae8d19b3d351;
 0x1e40e819f426fae3dbb00926a7d6556f30d84934ccabf99e9876351d1716b5e;
 0x27908496d0906f524c251653251098cfbdc97b9d7417e437710e1a7f4b80d08a;
 0x2db1814f1435cd07ee54f8c3205c7d76262cb5fc5da605836a08d47f3fdf134;
 0x19377a45d6a5de00751ea901198e1a0acc41ca8a99feae5eec07fe5233d289bc;
 0x2d004fc82e3df9a9b89321823458832770ec80f875895a3ffe2370c0aaa5cfba;
 0x17b836256a7de413cdcf93a4c4f8fb6b76975b1efe30aeef0ac12a83b3434c0e;
 0x1b234a28dab9149e2cd39bb34f794a85dd125f33383b77841b913128cb86a3fc;
 0x158861fd76bd8a58950c0c55d9578c9c6c3ff1aefa88803f32770adb1a6f17a6;
 0xeef809302d3141584285618b0ff2e6a373b1be0db0685be371bb601888aacb4;
 0x1acf3ee76f19de157996768dafafe604e185bb23356b6e2592032eb732dba44e;
 0x2f4f55f57b771ecc15813526d73b52b2fa1c4f065517b9bbf8c3658040e120bb;
 0x622964ca65a48b30d40a9fd4e8fa757fd737f020459e74a533cea55829072bc;
 0x1c8cb349b5eba594e3e96ee041eeb7e096facd421f789bd7df6aead030cfd1eb;
 0x1ef519f3b82f280469c1ea7b2551d3a38d3e50ad2b0c52ed0185780e83470697;
 0x71f966c5bb87111e1d0f03d17e2885ddf50b7b5dac99f2cf9c87f25a1383354;
 0x768f94a8cc8222f9d2eb36abaeae3b351ad7c8fd075971bc95de6c2422ff2ab;
 0x136fb9d089170fcb343dd1f2cf254468118c97ad2c951b6b3fe4933d5a4faa70;
 0x14204ad52e17efcc8d6c3b29ce5220a5ea8c6829e2a9d33f646df24212c2ca81;
 0x19349a56f15918f1e9c6c587cd23bb3f933af583322dd5c0fa6166cf1cd58c6f;
 0x2ffd15400e3d57af1d503755eb97d331814aae9add4764bb7e951816e06b4fd8;
 0x1880d406f04352ba0e70d1ea4e55302f239327e1dfbb0fe9fa74d947c04304;
 0x2194fd04a6d3e80a04f53235a5f46e8e2225e99c530173cc28fb1577a0ebaa4f;
 0x1384ccdde57742281a3d117c0dbc825cb7d1b7e2b57c0dee6521d315d60d8a11;
 0xab80f679adf8789e9f68615f8e65cade12c9c19e8b096f9d7a58a6e9155afc9;
 0x1be3a55706d4814487268bf10196ee80009ac69d26eaa4ae6b8299d3fa27da6b;
 0x1f8a7889404464277e3fa7dad1438e5a55db2b53b46f1080ab25b31b538acdd4;
 0x263c85c58282f656ea6193f72641aa2cf99ee4f7e47f1bc1bb22c46cefadbaee;
 0x1019099267ff1ed724e463573701f4c2d074337b27f474060dc35e72ccd18a1;
 0x429bebc430d4062e38733619b8d3fddd5c26d05b203ba9bcd5fb9058c7545f9;
 0xa03e113f74fc0aee3e546e5937bf8c561c12274fc5008cc63180a26004147df;
 0x688887334f483422f47a9397e45666c9fdc15e508fbd4fa83a5e722be92612a;
 0x1cab73177feeca8c863601745b40138d81b0c209334aac58951709278ccf7c3f;
 0x589e112f43c979ab3b8f131a7909a284f3786783a9205271f79813500826f3a;
 0x81a1d79b226d02f3edc79d6756b2b78d06b7677fbe7bfd2e1c73c5b055cf6f8;
 0x1d126b23da26bd262a0ba45cb83b78ae17efcf1aa5b97478d90843f0a618e923;
 0x19d02ccaf1f728c35b88592e300daf8c6cba6eaa7334352eb047885db22f97dd;
 0x1e7e21dbf66da47b76b4e025bbd438a654d665eeccff928e29ddd0587bdabdec;
 0x169ca09f61d1010465b3d6a04ea6f323ff2126b2c513f473e258a738c34e84a3;
 0x1afc1d0db8f4d43d32193344634043bd3cd59ec3c9e867e58f7c83489cf8e1bb;
 0x219f8604bfa2f5aebd196ece21fbaa2b5e9d5a62855beda8781afcd668357eef;
 0xdb71d9be8548133a2605d713b9f50cc768c1ab2824303b141f4b2f274c6f098;
 0x13603e5cd20c12ccf12da4f7d04e9555cda644e5d9abd0f5417f7bb8c6c24544;
 0x35c4356044389e8d8d3d84619243b57ec30cecc3ba8c7ee66d8ed9877c40d3;
 0xba68c56af0f045fee1b2266f53980c31cee55187faf97b612dcd930cddb452a;
 0x23f4759e8cf82af4e51b1a31233dc5277f53aa2422435da2698f1b65a9515787;
 0x12012879b9f59dece1ed0e03b17ec94a6ac6f2919157ab97dc1d5fec6fa4f017;
 0x1915797a54b7038336310e46e2faa0b48ba3e1a2d42b8b587bab86f80b9594ea;
 0x190ed18777ce88aa8ad85e8ec239d8259bf0f51ed8996339759d0453429b4425;
 0x24e04081c1519eac3990439d5f86f2967685fe86b8dc37a4444d5fbf2ab701b0;
 0x1345cdab47510fdbe7fc389be04256335e387d3f24d2aa7326f59399a10c85fd;
 0x119a3ac7803dfbda5564dc8178a79cc1eff78597aca6fd95b3dbbf4952511e7c;
 0x197b3596d3b66cadac6cc4d88c2da1de336594ee48a4f2e82ceefd9c81267b49;
 0x15740cbf5b80c058f671ab7b14b2e0bf3b15a44dca4d640da40453d0ebccb13;
 0x23da644943d6f890a344249f0d499702838011dc6e4535c478efc8a0e7ea1afc;
 0x2344f76a1be8f4bba48d9dec02fa88b6eee01d1c48d7e37d7210b5a8e471281e;
 0x2ed6f7c7b4188acd5623022b461c2672054ef8f69a05ec58fc8ec7f0a8fc6085;
 0xf5a919e83a103cc62a73502819fa163494d902d7ceadf613d7e0f7b56ae962d;
 0x168506fb5ae2170331ee463708ad0124c50dda86c1ab464f13711db7a2f6c4e8;
 0x65064ae2c2846b1e8c73942bdb1e2b402eb97a393e18a600bb8edbc8d029af0;
 0x1710ff94c079aec5589d7a0487ee074ffa49f880abb14d9dddd2739ee6adde2b;
 0x2af3554c9bbe595b39616669ca1984c2c143d16f9ee9ed316229b4f5a0a0103a;
 0x22964fc3479b20e70b3e98306ec30bf3d5128056b6fb525e100f684366c3891a;
 0x25de0b4cd61c81940d0fea87d9389eb473d469f0415eefd81b56d2048ebacb62;
 0x1fd575da1c5352daae237b0e8f76723d44a3413b49e016ea12634876310edb38;
 0x533b56af329976350645c7cb7fa29c1e0c3b5d880e25f5a52774d056e9658ac;
 0x167d885c645bd9cfb4a2d63d57268000b73d88398616fbdbe56f231b8b2bc825;
 0xcc2f243dd60cd41e04b2430c96abe40f21e3fd109e7a1946131880516bf86f8;
 0x341715bcd52b75e84c60edd47292611c4703f8f81abb45f58f86ff7897eee12;
 0x1ccc6d8301ac14bcb7d8cb9feec228f9c2eebdef5778fb88e69571374f2c2481;
 0x26d54cfcd51f1d76c8a6f67f37dfe4cb5365e33017fb4cd4d5aadfea672b3b88;
 0x2445313440a20b29650a00e2efa7432ecccd218a8b111a67e0ec28c559be72c3;
 0x8287cd7099b718a473e3a2dbff7354e6f56a54f860d1533b28a0c03407558b7;
 0x26c24628356a67c0a450cf53f60453defa580ffbec5295dac6f26d87ca67a71d;
 0x1d1cf3eea9d6f23c1722071241367ee8b05560a7af1a825fe788587692091aa4;
 0x29a6cc340dc509321a8db99a1e4a6f92ed22518718e050946a211b9b0b035091;
 0x22b0472d8d18e2207c7faa819e646aaffec0283c06cccb04554899c28dddb385;
 0xaca637d3f71393f5cb5d01e083778f519b821ef37e1335d65d14b2fad555568;
 0xcc06cdda9bbac58a1e162ef5c910ed9fa9861163b5bff627765b6de8e1e9719;
 0x21c547728fc964c17b65a60176da2a1a8292d0d503dc16a5c60513bf88863c44;
 0x8512df52d8a94319bcc6daa9f814853e4bf58f57d16f57997eb61d6a19bffbf;
 0x25c0d9feb0c02a64b753bca57cc68248a5dec4149be2b759bddb53b6f7593c39;
 0x2352d3944fa61a2c4ed5c84ec318fbbae05eb102075612c26b0f38670e69995e;
 0x24bb393dedb3f8114acdc77cda2e74a97ff8cf89d751fbfcd9f52a4287441763;
 0x33ba091bc665e268b65a8f2278ab3113f8c4ae9b6a0baccb4b840969a3b4f3b;
 0x21cb4b445e8a579c73436f6e08b6b2487ad0f5c4706f0ddc9545fa62ea0224b3;
 0x4a925ae34260dfdeb17f5c793e4b672b8f5c0da69f16bfb29403926e8d7d50d;
 0x2df42667610a6bc6602aba26746266877079dc345a79f6d673d64fb27d7ff499;
 0x179934386a6423cdb3a10950fb65d1c7776812ee19c813f5a67202bdf36c9807;
 0xc0f3cc0643c9053e7e87a1ed590dea8a70e6d5ebd907543c9561da4ee9fcf63;
 0x51a858defc040eaf0847bc5714fca3d63775709d5486a995e93336184fe0aa8;
 0x10a0da93f5e24e02e1da3b703eece97fd3a08f43a0476cfefd70372d6274fa47;
 0x2d7beb4067840b65456935fe808f57cc971b6fefb7e09ec91336103e2fb072b3;
 0x13f1bbb6a850cbb536a0197c016a46723d7387e991b67d58a8065c3e4dc18c55;
 0x41fd980971d4897e5e3f42f4342db10e517f639855fbaf21c0b9590b23bd8d8;
 0x9636927f5b349d290067029f74050c9750ef572691424a8a0a01663a45c5031;
 0x2af36e704001f6023acbe0757637f6cb0facba8e0515b0df5eb317a1dd0e65bf;
 0x2f97558fe6f6004109ac4658609a6d2cd1b22e5dc099a2ea132e88087e72cca0;
 0x23cc4c0f96eb9152447440a55e3a3d0be1abc83834d9fe0873fc9d714b0e26d0;
 0x2a5b6bd888a8a36578d8625f5b77e527ea06db8dc1b54796d80fb1c7db293b90;
 0x27220be37f223c82ef3157df596b7c3f21bcc03de8c4ab8d7f1d5baaaf638f0c;
 0x9b92d05c05908c5d9aaf4e8d234481f9684066bec0f478a6f7f41e4738f94c2;
 0x103686d84f6209572cdb829b7aa67962be01752899ddb717831df659c2e2f60b;
 0x23b62723d58ed5c2c6ba818383acd3964cf39243288d591a4ba0803b15b48735;
 0x18870f436ccb65a0e1dc5e6837248474ae52fd226b179221bbfe73f747eae139;
 0x28691d2f0c336148b5b5f1c5dc06b422d34071705f9a33faf2613c907f3325d;
 0x1191fc63b79d85edaca6a27d88e92d40d897cc0ad052136e60b5bd0a8e560282;
 0x16680b82f6e755d8b419d1e303203457b5470d8dfa214d023579cb6c1d09a3b6;
 0x180fd65f8c737e7e07fbd0e7646c1541c8c34f0bd8a1e1623a3a0e383ca42237;
 0x6c7ac54dd40d3891a14b48e742a06e587cbdfb65dff4a955da9c71d152241b2;
 0x2c65c95a72571373a6ab7a18b7f4392c1aef296eb581541d876bab6c3bfe6daf;
 0xd9c0008a4f07214c24fd0e733864d7c57f4e13c040c31923bde3e9288552bc7;
 0x12d3a04f3439bf85b6525221a3f314a2663b9b84ee290e481169dab2b0a48d0e;
 0x2c75ef5fcee292d05dee7a7ea27eebe87bedfe6582644dba0fb5118cfdf255eb;
 0x17c01330bb570b1ca9970d5872c1aaab8cda24b330e94a2c95d12549168283e3;
 0x35fa265ba78efec1b389d50f1880191c35bd402977c50d252892c70ff3a66f9;
 0x146a648e47158802e1fd7b6e211561de3ce10df63473c254ed2e3994796f3b28;
 0x5c2f2d7318f91f0398ab541c72b9abe4cd4810598bd0afb230fcdca28f0dc9c;
 0x1a14bac926bc804faab0ad62fa213583872294ff31da7306e8a092eb070acd47;
 0x883cd6e7dbe3bb29320db1da117618ff9f761713b7b07814f4bbad71610d89d;
 0x6f98d2bbeb45ad82e7624bc3e387a1b0d818fcc94ce9d96f4e73e80caa23e55;
 0xc2ec98dc0ee676d862cc05b09e7d74389f6844ef462de336f6a8b693e568d96;
 0x255191cfa833cd6a862ac869e520575e8da70da30ec970657c38781a7b002641;
 0x2636c3de1dd779e5577de214b3e6c6351711e9cc1348dbc553be1c8d68b8b067;
 0x6437037937218fcf4e73ce9b338baca0c3fe948c398cf9fcba25ac02e652956;
 0x1008550284340174d1e47ac5a027793311c42867e3b718b24a4789acfb7d6dc9;
 0x152b99159e87dd6e681aaef38bf7295419bb87db5f9fb0cbf37320ec726d448e;
 0xd382ade9b281a2e726cb96db54d26f433258818753b88e266280f74d8dca806;
 0xf544e2459e6a636d8da23834e317ea9ade7b2a07c4ab94c368da356cd884e6d;
 0x2a6122af7c1cf2946b33735d2a9f5020cc5dd8669529e77d0069db364ccb08ca;
 0x2bd710638fa09fa70cb0aab6bcde56cacaeb11aa9bec688c033ef7830dd0cd07;
 0x17e172b03f25c98e9680cd0bbacf1933a942d834d945fb9880fae95d2594939e;
 0x759acc9cb975aefb18a833ff4c84df8346ef63c4eb67e220b11b0f5350c6331;
 0x229f41e153a4409fa2c0c7c75811813d8a71930da6c8b1b8827aa648bdcea63c;
 0xd3153d6d1440aa8e8dc0bf1058667a18e5931afe24fa90ac1911fe322d3d9f7;
 0x198a6f179f92ba427490fb90b8cf3455f69f02b756e98eb07d4601a52c77a33c;
 0x29c2be07e30d93dd927e80aa49c44df0dbb5f0506e96676d2d4b1a91570bc7e4;
 0x13e75b095ad21ac9d107b2a7f1e62088974240549c0bb4e7d83ce4630cdabdcd;
 0x186d1e26c4e415c8aab305f162f00d8a7754cc1a7a4a5f2f318b7437465ca869;
 0x24462e17b2b3ff3912d0e41f1750cff169806bc158648da822e1bc9f6212886c;
 0x4c8ff3b9a174fc06d3b3302ff57c510ad38580c35f4e3b5af79e24055662bc2;
 0x174a26f79f26fa7c4c2682cec14da70aed49fe7c75770f87a52b5a672413289f;
 0x1794c80fa206e99862d7e1a753d7754f6f1779581a85201fd46a5bfb7baa952f;
 0x25b4632d29770667d09f79c33bb2a8a5af66a449d6d39f6fdbe63c976e1ca11;
 0x11adf7def96c53dbdffd06a85d63145f0dd2395063e8d332be42ea99ca368547;
 0x1b928b7f293beab032350dd3ea4c4b48c4a04fdff082b4f542e094d973a399b;
 0x281187bf98a4c5a6bf90203092c6aecb9fc2e561974f79f7481aa6d2991832ba;
 0x247168cd8fc0ee2cc9fea561bc4e01ad3ea57874756f9d9d734a7fbc45c000b9;
 0x23097d74125e04278e5fd0e14f52ee1936b901c2de64a05b2b80991a1f3f19e8;
 0x2cafdfff6422239399753a96110feaa8a156264bbf59013f1d8195a30838e649;
 0x1a5820280d1cc66e2cbb99320a29d80e7844576377636d8cc22a5b89838b5e81;
 0x439af191c824775b86b6ae9cdded69e0ac524d2d7953bce65dc54e116546a47;
 0x59216dce06bd797a98709ad2b90c15d1f9f78177f0ad66d50009725ed6864b3;
 0x17453fd8ce97c60079f3d00aa29be8b9b90cbcc9a2161b7cef52c599c6286cd2;
 0x23a1ac8f3a07c86e93184c5f082be51a98f706b6d1467dce344bfe266397ec7;
 0x13b7bfd3ad519190d49beb27b00df30991fad40a694ef0df12e89d617263eb98;
 0x3d37546147228b5faf95ba080b2b40226a58810463208b9b39566f073163dfd;
 0x5f3bcfb8ddc917835430a22e50cfb51396f15242a5fd0c7e3ac1538004d19ee;
 0xb75558f92567fc1ec54e9954a33efafbf51866a5894a76552d1349523cf65ff;
 0x9415183df1031dad23297c334ef7a255819b7d74365be4f353a88b427d90697;
 0x2dc2c7f19b5024315cf5b0c76546f9432e068efb50dd37c395fb8744771c0e34;
 0x115a5ac148ff0c29901220bf5b9cbd3d5de9a902c8c6efd02f7a92cb1d4eda5d;
 0x1ec78942eb0fed168fbe55b730675f3ddfcab69c122d9f6ca22f7cfa72280ba2;
 0x24bc460c697257bb30552b45ad37313987739e25079c2842dcdf2f974f9bb686;
 0x278a2b29bde54b5e1d0f87216de48f51d4dfa284555ebd7fe7f3dddc234d1a5b;
 0x10f5c4b02af508777c4cd3cd0c6c11f4d679fb3b0d7a52698593bf50cf203cb4;
 0x2d695324f885445840f526b71e519f295cfb0a6e4f24145f952d8baf8572f573;
 0x18113527536434b631fb3777ac733ab250ddbe971da50f13fa6cf26c9e05bd1e;
 0x40730e3684e391d5a166b5487ef2fa42a9efc154629ce413c989efe2c878592;
 0x1ebb21dae6af4dc7d80bd2bb938982c215ca124b15e0797883af2a80adec4a12;
 0xc68022eb63cb3a73859b577b59b17e6f836176c595c6a1fda124a05ecefc10e;
 0x88f4a9af5d668475bbaa35610bfac5790e103ef53b9a1b3abdbbe293e56f5ae;
 0x1325e2e84e281caae87f905df719eb665173fc82cfce43743eb3f0d1fccc98b4;
 0x2f3ea3a22a56db970cbbedaafe9d85f14f02456889b64ab7124b2479978ed3ee;
 0x55564b7831acfd8f46df96ef819622a4462bfe8281b05e95557598167ee9f30;
 0x8c29e9a22ec7f02449273a35136949b73de66834e3f015f4689043aab341015;
 0x212a65492c6e2992484160e5e2f6fe8fec7581256613b05b8cd4237ea596dda3;
 0x20e629bb5b6c1ef07efa2fc1f8f63b12aa92bfb42e38e48335db3adf267416fc;
 0x4086fd6c2128b11a5aa58fa2a8b25ed5e57c5b6a3df6534839a817299ce7713;
 0x65245cf59148ef3cf923d2866e6f1f61ea54e6a0e650b6ab8c9bf94dcf1e9a3;
 0xb6c1b1badc00e60dc7e286bf1b76198e61a063cfdc2630f7565064af179fa54;
 0x23a3829defce44de2819dbeddcd9bd17cc1cc24d5efd94345352d153c898097;
 0x1b51d50b9f2a1ce039e1bf33a4395f693e12cba9aa5ceaf5fc0c6265ea446bdf;
 0xada2b8bf069b0a8622be85bec5cc1502475bcc995a5687023ea33d3a949382d;
 0x832620a355e131a479d163bd702e2e96aab3688f818b54ad378764ae1a2d3cc;
 0x1dd7cf51102ea8b1048d3dfca649308d59f65f4f370be00726cf5c8e3a72fc5;
 0x22cf9eadd9580935f02cd8a788978c53bb4cd780b262c7aa0beb67def5d1975e;
 0x17e3b5605516db11b62512348f8e7f206c2e71fd57a7bd9fe96832af6bf7215b;
 0x1aad1cbdd185bc5a2bbdceef570edb986520eb92bce2b265ab8864c51ac489d3;
 0x28d5eced9d9e5515d0c29b800e333bf66662a8b5b9839856e4094222dfb4e3d3;
 0x15660d8c936e1eeeedb10437c4cae544dbc1b9be0fdd639feffd0246a313e886;
 0x1f5e8f3f715cba0dba6f1271e1cc8940b37305246fea62aa7e16c301c89fe3e6;
 0x3bc3a131bcea5b2f4ddb5cd58f71a92c54973da67f3b6aeeb9c2b2b1ed32628;
 0x10989c21815e815e3695b1e86eac0ad5e68468f37066142d042d951afa013609;
 0x13a14796be2c62bfcef389accb50952a46c7569e009201965f13223a77feff88;
 0xf307148b769d5a3aa0d70b54514d1de5098e070dab986c02cd91005c37a9385;
 0x1e720c542b831a978860eca880ad522210565a065884b82fdd9abaed3d224b99;
 0x136981fc4f37a5ddbd57a28438eb003ca7ff0109b349c2b3114447bfe6420d5f;
 0x23c0f4dca797a7ffeed6185b6270045ae960f80e1ffbded2349f7857defcc5e6;
 0xcadec3532eef6e435656436bdf7ec56853edf2ecc1dcab33e585d7f9f33f215;
 0x1d3fd0cddca96749c0e76b1094747f66e822bb07a1a011506d198eb80b831421;
 0xfa4bf5751e05cb1879a7e9d1be18c0cfb070ae2e54365037bf152b45ac085ef;
 0x801c4500a511b5f9b6f0bcb6deb2d0898a3ee9d9727cf027bb17bced7992263;
 0x13b257c8b7194f0ccfcd859b03f7451cde8314798115ac1de5981ccbeea58e56;
 0xc8e8cb135dd381120087376a03c386e67871000da2b1bc02be951330f7a5670;
 0x165762ac8bae66f3f3807dd925a4334e870a9b885628cb7bc0b8b7cb941c070f;
 0x42543556c325a58e3ac753f4a5aec40d3c73926e9e3b0a62b92a5b920c47cc0;
 0x10884137e86600bdf06f81d79045eac6c34f58ad687b799c849d2d12afb2b005;
 0x243aa9a7d3478eb73fc5c1107b39becd9808c6e5e45533a3b267cea612a3bc10;
 0xd56cd4f582b5719a3301be7873142cdbdbac3901c33c71f490a29f198cf837f;
 0x1bfb79eb37264d67c12bc4b214fd728d6adf84d02a08165ecc982868612e504;
 0x82b38037b96a47f54fea54f4f851430f7c716766cb58c14f3db8ee1daa707b3;
 0x1d92ef0b67d46a991de603c82917a32b7b0911408f8c8ab283bd36fc1c62ba78;
 0x1e85bcc91932f9ca07b35984a41c4bfdca243a151441e1b758c5a4c0ae6ba181;
 0x25e30f6d84da989e0d4d0db84cf57739ed9d1f354c8e3aafcc01b47802c57a34;
 0x11ee0dd308c65edc88ce2ad2edeca29b6600ffaf309fc6c5e3a3d6318ca98c83;
 0x18f3ca75188fff5274224cde36c2d85211b094c20f53d9e3a4351896e3d1a1c0;
 0x5b6b21c1f708032911b6e0dc4e57d1e8edcbdd144102b28c8617e53b11e4e7b;
 0xeb79b07bcbdf2d2258177bfd15ba43bc56d9362e49f13d002394f6c635f20f;
 0x1d963571ce7313a17110b17d64d45001b36d20b4869ffcee44ee578d23d6488d;
 0x28c45144eadce345f87378b432bcf30e9fdb40e2ffcf61f5b918e3ad42ccf153;
 0x2776530993a11fb7e5222ee0df505be5e57cdbb6352ff7853e668007714bd718;
 0x210a7004456a4c7e56642e7940230842fd54b7fbdb8c337cb1493561e778fe8f;
 0xcc1cb51986ab1a0f628c12d7c6656a9d8495db91d90e5dae8f0dd264d9f19ba;
 0x13d1e0cbd9e0f421626c8db09dd24df92c270688e702495231d057c7676fb1dd;
 0x1c2b5ad45cf4181611eda67060a0490d8d6ae3cd1b10a1570b00bf0bd3a26e09;
 0x25edc11d3b5e6e968ca9a27c340cf9350744d28920f5762687d2d31dfae14235;
 0x230c8e7ac3ff2b39daeba2788119cd58a3a90a9c24c3ed821eafd08383f389a0;
 0x2937cb33c930ac4be787b6e890e67f8a08cc92c151f7e673ffbcc27b25cd0b1f;
 0x28a3ac677b6f19ace69e3d06049557fde2a92476c199e1c819c907ce456812e5;
 0x2dec341eed7524a26b7b91bab300323347038c01206e0f780349e5c2ca247076;
 0xe83c9f68c5feb4210d633821cc840bd1fbcbed87effde9f23d4403d9b8b03e5;
 0x112fb21185598e785bff0f0f7e4821289232403fb2b31b48e7ec9022df2b7971;
 0x1faa621f0c039fdc8024cbddf4ca817581c6e3f26bde278b13c34cd651bd8782;
 0x4e3d26adfcb4ef7cc322ee557878606ea5b537fa1f880445c647e8d12c98c91;
 0x1a70c2015bf1c5dfa637e8debf8f759e309f46c37e535f0c64486995ea5b9061;
 0x228f60de5b5f3ae8a52bcedecf7b3830d5b6879fed7eed95231c674c016c7fea;
 0xe4ddc512fdf839ac48b7ddb03e765e9cf5e320745572a5d4f70097c1074406a;
 0x1f8e572e2e0b48f9b6bdc474210a1c8df655ca5e19f7d13b5a89a185f3a3cea1;
 0x3a183213151c33d6c58b6631cafa0c05300f75deb9ff971fafd35441f5cac78;
 0x1b7da980828048a7498cdd2b49ec08be3bad7d4327c9754b5e3fd674e02c8286;
 0x285dd9c3bde7c361a16cbf14bfb0b5a78d8f4ce4433d41f13a372e92c35e21b5;
 0x6f952d66d60cd18949ec08a5c203707ff452e3df32d50a4e221e72a793cba06;
 0x2f6843da088f675ea773a0377ecfcee33c9601ada5b8256b49f2c2259ab8abdf;
 0x1bee4d9e168ac606a73d79a990c590900012aaff03291747553781384c28d800;
 0xc8c85c0320d6911ab65a50deb2b2825d3e33921a46522e54ccb6b806e55f192;
 0x119ffc6ee4a000ec8b6bd175bc99718dab6508e999578d85f57fe22946120d55;
 0x300d0e8681f117fb491827fa12101206254ecfe5a70b08716d1950b6635cff06;
 0x4f424c26471906086dad2de5452b3148a9480a644e69b0d2c6a8e3572070181;
 0x2aeea0843be6d263700672c426e9820c16f096fdeadef7beb1c423c04eddde55;
 0x270aa0ae5c5a5ddf685bc432b47c996eead9eb1ed89a25bed2bb358cb4edb6f4;
 0xba4f42fa43b005e31fe2fbf27ae1df017ff6d11f27cf952436383ac901bd17f;
 0x189ac9f58d25991d10ca6233b1ad8cc583cc1c2479967904a801f92c4db08818;
 0xac7c203b5b06e4b6f56de45fbd9e502d79662b3ef4c122f73f7a3383fb52af5;
 0x2ed482bccb4a7c8a75dfd31a443b74d1e4ef522a250660344c21a8320a478cfe;
 0xf4eadae92ccf071dcdb7d67241db82286a0b53436225d8d6d06c3094d032be8;
 0x2f3ee4a76715b3bc3feb74e528948ff152d0b69cae7aaa30ed3d254ba8931a73;
 0xa666ccbfa6ed09c57f58ee2963407236b8ebe1935729e811689b398a9dd7b40;
 0x2abf8b9e553379c8bf68fbc67a67dee5a22df97393673145211d0fe9f5efca24;
 0x1e0e4a52a2fe011eafaace83d54b92e6d857634b4510101958e7d80686ee9274;
 0x13ee73f6525acc520a0987c161e5195723b4785d7ba6a031c8357fd55ea7540f;
 0x94ff2c24cfd2859ef66c4f62696fcdc7edb93ab92127ca6227a6c029de19e11;
 0x26fdd4092be37092fa13e02d03b3c93dabb7fb7bbacf3129344061909556cc7;
 0x60cb0ebf20906790098d260ed00a75704e88e33386f43e272154888d56fefe6;
 0xab0fa8ccd280804c537d2e09aec4c1306b1a7b479c6623e9128364d9297f7dd;
 0x13dd22e61ff5e9e3387f90488037e06c48cf9ec7b8fc40b2f78e831e977f3d13;
 0x24c62af21d61cc277ed3eecb6b53da40f824a6bc8619f830a5a5bf86846c1d41;
 0x2a025c7888cb0ec6a2338a4be571a7c67bdf7f7dcf5c0775b785a2c5ea3a0c60;
 0x35c1ff077b016b8069c044a2bf5cc09803e94ee0110c17a5bbe594cbb270e14;
 0x2f296505bf1353b23a672791a4ee325a28a9e1b21ddb02278e48b7c8fd354d18;
 0x13b16c3cc0ca470c75bc2ad7bfd6cbf0b669c762bf0411010099c1162e26a9a7;
 0x2d3c900ba9a9d5494fced5d70e8a40acb68f47a0bd2521f3813ef831f690f5af;
 0xce9e5f31feb0a8d20eb1aba890083cc3092738bfc196e10db8cc34b31f1af2d;
 0xda413bc6c64a52d068bbc66aa2517c323ce2e00ec365235cabb2235c32c93d1;
 0x1897ae1a23df0f99f8c1cd4d480958b959d327816e6a79d83f64f11f29f9a26e;
 0xd116dfe5362123684539d6841825a764c053dee6db6b2bb5d35966760a232d0;
 0x21e25952e98f9615b696b4cdc5403cd7cc432835a8e78ac727a64674b34e4314;
 0x1a3dad57e7ae205a48f3a024984c4da0501b544afc63aea283022642d3b74528;
 0x19bd3efa0a6092951ee71b313c1b6cd2b016f1decb5b51d8dc14927ec770f186;
 0x266efc42a30cd04d6778f50a3fbd5c51dbcfcefb6eb400f85a7a278ae184e381;
 0x1c8d90d85ef64bf4bedde609957ff4dd007aa05eb2a2d04e07b03013d7c90b6a;
 0x2ac06d4cdbd30847a9fce14472ae320e1f36252687227e082f213b219e72703;
 0x522f2c9b0876d27388b8b52a51002e5fe0669f33da07014dbb8c0a8e29e85cf;
 0x26bf744624ce575461c466270c3c7cb09ef5c0b8342d865985ff22d17b47239b;
 0x2375100f868f06ec614e0ded6d99f714a1b3159f810493c846eec25cc2df2854;
 0xbf461146b46b3e73e0edd4936989f404cea1f9d9a058297b94cdeac7758325c;
 0xe98376ed641425e2716faefd8ed7544b173c5a3a66936209e4af629ae6771c4;
 0x2f9c4d96056a1391d89f28720a20d0a1e7cb59a5c93a87dfe6069b5f4eca2710;
 0x192f200bf3b555bbac797819bb21b990b729d65a4d28a27d6d3f00f1a02aa23a;
 0x2bf8984b5626accf10b7667f4fdccdb7cb605a0ae34d6d204ac1cbc80cb49126;
 0xbca21c12464247244b2a19fd30fed65f8e3abbf8335b49205c1fcc1f6aac1aa;
 0x14078d4ee11f463471a49516c3c85f9a266f8c40f6d7b1f86b1d1935b09f15f8;
 0xbb8a04ecf9f98e1697d330e922d0c8abde0000b50b5aa57c5800d52df4de011;
 0x21526121c05e09a0abd2ca6efe5b42ebf7e9115382221caaae628a334917b035;
 0xf6a443b0e7ebb0bf777511512f66c5e5bbe044c9665d96109018d9729c84f4;
 0x10092751e94fb6b5e49bea158a014bd99078542458af14ba4cbd9258b8acd236;
 0x29389903d0d3c29a173ddf452a66b4abd36efc642cb0b57d8f10819d5c0f5f4;
 0x2b6d20e6cc7ca916f542668724179d8d0ff0741c3d51f74545e2139112177376;
 0x2900b4277fb3a0ff83b4c58fac79a8861e305d5eb313f2cf57dbb05939036558;
 0x10afdc0066dda9b64bdd43b86d0ed62b9b3938007cc50f5699250240cd2ee1a9;
 0x301ed1566f5220e17fbd4083a57bf42c12c15a6647ae8103edca272fbd5f8f11;
 0x27f1833229c3a5998686903e824bb3e3e10bc969f1342ab0d02de635fddaff11;
 0xc4ef35ff9f906d0bea489d201c210c53abbd47a151a9e4efbdb922029fb64af;
 0xba5ab9246af723bff457ab8228be06484af3e3545dbb4c932ca49115f957d27;
 0x21c572bd4264d821c5e2aef993006499c88b3245cee9593f02c250149ae87ac0;
 0x4d1cc4795008719326f8106c9ce9a4b0dde4f4de01d2429a23511b1fd0fd171;
 0xa379f7d6eedca7c4f07bb5df2d8ea0dd87f1eefe2ac2271370a7f3be27065cf;
 0x28daef7d37a43f2ba44065f2213912eab6c8c60e3f7560fca990be0ff4639720;
 0x2906e8996458504f2c044f053c4ad24d35b0e0ed373b27e02e5235a3d34f65c3;
 0x260738b3d0a746fb0612dca6db53bb968c552213b2f9a134df341baf3e1379c3;
 0x5f177ae8c6eec8b9712cfa042776690e924bf422430011ef27af82df0abb237;
 0x26811027f445e86c192e8ae371d2e83fb73561c8cfd10bbf5b29a77f56b1d95f;
 0x12def5ee59c1b4a96b50ab3de36175640cb70363fef89995f34926ee84be514f;
 0x69b58a6aa41994a11cc7dd3a428f6c4ce621b5b06793f5e95b4034e2ef7e9bb;
 0xdbb162fce1812bf2a16aeb6aac7f1737f2d27660ca4cdf6e79121fbfbb6c5e6;
 0x287ba84aa5087d8cc9f89450f1fe391cc3a84f28a24b261cd1dcdab039a309f8;
 0x1e878a1f2fc77cbe232aea7683d46d8996debb9cb06af003849fd099e9c504e9;
 0x1c8d1ef246dd75f42de13c5bfe069c08d6af9943cd7f2336f31c896456cba2f1;
 0x74f1a678cb029488356dcb477a88303d0ded5f2d5ece54769f15abc1994538c;
 0x2766e558172ac70b1f3dd85f4c80517ba6e18556bf51d20f687b669e7815d47d;
 0x20636353e29facebaee5f04ede42fc3ead0d07727ede7a80af1c505c6ff5d534;
 0x11ed975aa3d3f9bac1e0bab123041671f8db695fe07601fe5a71e0fcca916b46;
 0x18100160418fd858f3e4fe8d5d6b80e2ef376618bfe5a556f24bc3247099c441;
 0x2abca18d9b3f2522e21ee57a1c6634ec12774d041e65ef8430224cf31f960f14;
 0x16625241533c582b9b57f6e0963dfbba9a7026139daab3174fbe71b0d9522c8d;
 0x1bd3cf1bd3124abaa627850ff77a6778e8d82d07ca24655d94c5a27b57c780b7;
 0x84e7ae8a515bbe6fd8370e7c13e7d09835c3749ed21c2842e7c46b4bfad4e38;
 0x105b64fdb0f02988732b58e06db800b2df09a71a5b5a165ad2011ebf48a6447;
 0x43ed436d6b9af567aac7e24206137faa086d188e8444cabd5234983904bcef1;
 0x2451cb7a5dec1f93fd2b3f8b97c4b1dd2fce7c87d0a92c9f699bc550032a0a7b;
 0x18f37c624e96ef9c494d2f016bb1ed956ef951f3b57420a46c7160bdfaa576c1;
 0x1bf84d6d70c748ccd981c21b19d555ce7c3841f34220c10797af76f62e258980;
 0xbf9b051f2021f38a294eadfd0811f05c08852720bdc749e1f9a62720f62719a;
 0x19f1fd2199e3aac88c7ccd7dd858d158c2ef10e8236d2cd66a70a3f0d187988a;
 0x1af9d63ace6db7a8ae20a04b776fa39de34b795394231214317f036e5954eea4;
 0x1b3a2d08d1c3763b7678b9d9de1fee10cda80937fd7d74f27d6e550386f5443e].
(* poseidon_bn128_constants.rs:11282-11399 *)
Definition bn_m10 : list (list Z) := [[0xb1e797eee3f15b88ce3a1fafec88da1d6329ac3c34712db570de886cf569098;
 0x2fe429db8068e61b82624f25766273cd9fe6368ff097eab97aaa09be4c630e27;
 0x2e750867942439083365d21fe760c7dfec9e3593c67de12a4255c6b01648b690;
 0x23237985a96b177ff7c01486ab0d603d29991b8324abd6b07dbb96f5c21ba17f;
 0x15ccec857b25934ffd429af92c910db31d00dc1c3fb83745a31d8131ea5baa85;
 0x17102ad2d98043e5509e76c331e6b22d5fb62d074760806aa675764660eb56d2;
 0xa4ecaabde9d1ea11c81dafa8d5d4869bee7ad0bf4eb78397b71b8f989cf9812;
 0xec1821648fddc448a1512aecc8ac37714923981940f5542737a468d4d887c8f;
 0x255a493aa4becd9d137eb76941c4120784c1233f6c5fdf5d65c0832af543e415;
 0x120f44670301b1435249294d9833d59e01682af4c8658719727678fd9ab7ef2e];
 [0x1abb95b6e33243a050e563b5c4fd059de5513ec28994a6f60e57c98d3bc8f586;
 0xa5b604c958bc90071ad10618b1772599e0c8dddfb641131fef39daa58a39923;
 0x24e82df5873953792baca345b7c19f61039adeb1190592bca18cf4f907c1a6fe;
 0x10e3349eefd3a112417e110fd9e832078e54b5f4537cd018aee3dfbb90541581;
 0x165adebe00c7ba019499018c96f5c5870eca5679c90c843d9527184a525fcca0;
 0x1fb81218feeedf4e7e0e33dd8ecbe62d65c6b7d4233f32e073571ff862d89c3;
 0x1be2802fbea51003aafae82ff4499d1158377b108f8b020c82b8460a8d603afa;
 0x418081de8c2958355a1e45e28ee51ba2c66cad04835f4fbd81e696de6398769;
 0x1f3e937ab29f3a88c6fe438698a7198a5209aa6ac9f141319f3bb201e7fd6716;
 0x113e968769b0ea32cb7b5ff70484aacc96f13dc2827a8e5e611695e0797fc3c];
 [0x110d213a836478aa301bc1fd4edd388507d87745b3abfba5bf282afd21f7242a;
 0x2cdee0c635a4fcd9549f0f91b4f4a9b628aa7319e2eaa094a693b38b5cf9a242;
 0xd60f0585755d48577b465746de8e286e49925150f1784f29fb6b96dbd8f0ec;
 0x2168dcf216d8369a626ccc61453236a389d02519f3052e87eff9ccb8aa299c46;
 0x3530dd962ef23dc16f79b28c1fc1ddafe9458be15174cbbbf3a806de5f63cef;
 0x1cedc6d4e1476741c1099557e58e642c42892aa36e2d0a793f670781a21b0dbd;
 0x269c8c139a4f61e16bfaae9e8bbb1c69808c9071083b0a339dff9e4904b443d6;
 0xea7bc52503e2039d277912e022fd6d0ded5bc687c6ff97194976f3a28bd30c6;
 0x2180b9eb156eb33cad1aa750ea0fa3ddbfa4127296e497f86e6441e052a23b45;
 0x18cd1471430adad31e45b529494fc8a7e319bd2fc0619c99207dfacdb657bbf7];
 [0x18edb2d105bb53b768ae0137850dc2d2bf6d1303a1f8ee4aadf76d8f81990588;
 0x2c962d7d54a98c3a82a638d8c82450813f42071a17c6c05f470b44958f57ef15;
 0x1f495e93014314988dace5e4e867f5109e09fa00fce87929d1e0ece95a449345;
 0x262903f36acf0dc055f610397df0794fbc30927ef185c6356bc33e5c31faef9f;
 0x1b7e922b3dd503e6441ada966c8b3ba7b908cb2b98b5fbe1e4c2fb982455baa2;
 0x1a88ae2fde12ba32e5f4eccacf11c25bc163bdedaaa8824474cae5869e5ec20f;
 0x23407728269c70fe712b021915059dc8dc2124ae648e2cb549fc76362bc2b97d;
 0x12ab318626d511c23d28baa9fb5b5802e0ab95e3cb17aedbaa25f4d084cfda57;
 0x1cc69d8f34ee877838950e20a9d4c4bd3e9acaf3d693aa64cae04faa225a2e1e;
 0x23d0fa965e920dfc530b52670b1e32e2d5fc2821fc918c0844a003b7141825ad];
 [0x1e53e92df6c53ecec4c0de5b07dc4c9a0c5545f2abcc1fabf4ccb84a0a6e2c27;
 0x2bc761185f59efb7b67bcf1d3e54da00daea067fe49e3f1d9334e5470438b454;
 0x124331e0ecb1d9808a1d91efaa98950abe930c46fee5a30d5ad07976a5bc0263;
 0x46887724f29321895c2ef8bc0cf545df773c04baa097c352a4165395cca786;
 0x247460ad4580a18639eada69b904c91b19f7d4387435707696c40bac3bfbdd33;
 0x265412a4e3b5560aba502d20ed833deff707b7d425ba3c09f3b6392b6f1f4339;
 0x2ad06fc9f81684542e0458aae19c0a7c18be94f1de3fce6a3e5d2335a01e90e;
 0xd1e34192343d66fc1b6591cb6a3b0602b0835a403c7227dbcbd72fd8000c6f2;
 0xb565179887ee30e381631d8e5dd357c70ee2ebb410617d2321f6d8537f98970;
 0x2ea6b32af37cd765d728ddefa30918902a21e19b291400854f56393c56d69460];
 [0x10fcb817e10f69f7074e64c393b807cdddf33c84a8b5cfe33f44b73fe18c0e36;
 0x2e450d1fe7773c9889a0be55e44453bcc844c94b56fc0bb806eb9982ac553428;
 0x2f421fcf54d77dd38930cd69076f9baadd3d3f1947371215a66c894d637e89b9;
 0x13276081db012d1d4f4b7dd2d8a2f8a5180d2ecc33854cdd35f9ceb07bf40d53;
 0x144d5be38d44c5bf8f3c5735334fb1a07c13702d86af39ba0b4220ec9a7568a2;
 0x12691b599d32edc48ae99c7a73abd59e5b18f4bf773fa1051cabd2c49aaabf6b;
 0x578a55f0fda29909b9f850c3d74be6668e4444ac691764f1644a626498218e4;
 0x12e3b04924b2cf6e407bd26b3cd47bca61d6ffcf7efa1aea1c2e0d8a49de64be;
 0x1162a56ed3bbbb4b6760a16a300ba7202130086da4d5588a70926423ff8c242f;
 0x3340cacb04d5a85614eacc4be3352938baa3fc714c2575aa9d85f739113c50b];
 [0x2b1d8c11fc652c593543b6f9800bb7d0c9371dedb96f08bbbccffdc6cc44db98;
 0x25c0f87c946f375e341f72f6a8dd63a94e86f4ad182715bcfcbf2b28df6b4a0d;
 0x543b2bc66f3b2d93d4c1882039ddb37c70c0b437ac23ac5bb9868e6df24485e;
 0x2dd117218538e8acb0301eb40adfa2435f5bffa8028ff52f96a99d77fe927066;
 0x269b06b31e89ff132daebc200efdc8ab068136fce65f2fc55a1dcb939b7fc6f5;
 0x20d4401cbbf92877ecf616d7d28551cb0aec552fae9518dcf9218c38c1a0bc90;
 0x2ee2da24b7f8e7035fb73b08c3414833ffa38e14b1faac198a860a5767d2feed;
 0x6dd89fabf92546847b9c13b3a36bbc7e679c5bb0dd785403f3ff49bbe61c8e7;
 0x1360f719034572b59410c529b62a62aa94565654597e42779f33400f1d17d652;
 0x15ff827e034c02a90767f0152840e7fc6db983e496ea0519c0ff41dea8180628];
 [0x19f473e40c05676d5f8d51e11336e9c65cb32828c397cc8125f1dc667b6cadf7;
 0xbfe6fc08e2a2e1b8911ae065b985388fcd105a490a4ab943b25558cf3d054b6;
 0x203d9ee6462a586914fe7dbfc1bfa29773b7f9b3d63aea4120c601129c16660f;
 0x1b912abf2e1649ad4834ca5b2a3831cc9c207d4d08e4bf274a79dca80e52fe24;
 0x62caa3c9fd39b69864faf701dc8a4588571cb31bfd5c9c3c59dfd97e99f701a;
 0x138c03a2ecea183cb8f265eecd7e93275b0bb98297c1545a72197dc6ddd9335f;
 0x11589959fc2493292fb6c50730e74994ad7cd6d3533c3b00a57dae833cc701e5;
 0x17b9facdbe747d7c5163ca00e3b0b825d012ed4357604e7185750d677c6b357f;
 0xc603d03f92860da8a68c6dcb1924d1a45099aea50f1a362edb2f2a7ddfe90ff;
 0x5d56f0c844d169248503135e4deb9ffd6329d54cfceed4b947d78a568681147];
 [0xfcf3a4d9c6c3392de1bdfe25cfb86817ecb80c51be17d47f79750201f1fcd01;
 0xc182e438257c4ad7e7b79c3b68d60984e507ac597cb47dc31d913a7a540fd9a;
 0x25a1ecbd7e7893f646f35d3e07ee997c94354737884fe6c26ae8155760db8aa;
 0x20135ff263867f708ee0275170cc9788689c088b2933a361c775cf430748ef1f;
 0x20e160f772998a2f7d0064c7efa15884ebc6d8b71821cd5336e2df14341c95ee;
 0x150df11291b680e3ba925a0471c7fbb30e704ab4b554ea5d8c07b70b2b96202a;
 0x17572029e8e897202d0e65c2172c571d4b91ca856e7ad3f118ad922127b87054;
 0xaff15650b805bff6f8b3515d5e29cf914b7349af8924e796009f8a4f1b7264c;
 0x1a918fc117d9a6445e363ee5833dc01411034b95384d98eee47ae896f92a7d67;
 0x2e5618411efea30cc7de310d4872597d087c1e122e02ebb117db0c2dff04fc0c];
 [0x23b02d00fe2634889673a7d04736fe15b9f62652b1c0626a19af8d6085d70822;
 0x2ff4d0b8798a82667793533730083c25223d589cdd079362f1e8c2e01d54476a;
 0x1d897f60e87fce5ceed8da7f2f4a63fdee7ff9dcf179c08e05e9e5cdd8238ac7;
 0xba6d4ceee2182d3f2ab2e4a3ad08fc31f7f4cc0fec91ad53e92bf8ada3e278f;
 0x5ce94b8e9a60b28947710461d87c7757246266ae8fa5d3af3ea81776b5b8c07;
 0xc346b046af03cb9048c29353e1107d6b75e590bb2d422ea83c09a5da1ba0c65;
 0x2fbf8cc6ec7efb30106423f2e67b0aa9403360e56e88b6c5cbaec34a80bdc7f4;
 0xd064e72449efc11d1e90b97749de3909490b912bb1f72f542f41d62ab2d847a;
 0x2a88e0c35617665f3cc2fc77d90afc7a8d1001c71debcf2733ca0c71a19e1ea;
 0x15eeb3e0541bcf010da0c47adb12f6df540b974d439c93e19ea4d02f9975d446]].
(* poseidon_bn128_constants_opt.rs:857-996 *)
Definition bn_C10 : list Z := [0xe1962c232fd0a6bb54ad8962a82b9838cfef19d290a55fc49d6debd061cd2f6;
 0x1e1f45cff3e74168accd0a94536fca6317128953eb47d8d2d79b847b355cf51;
 0x1367eec3b20cb74953618fd9261047755ef7f8aae5ffe96fc8f7d9a02e37bd1a;
 0x2ff6ad40533afa2acb78c9b91650d7ccbd274b09f78c100479f3a4d72956d706;
 0x152c8c3d9e43d90ad8094831a74af8151fdcda0b18d7bd8374ffda68d1a5fc71;
 0x241707db26f96df502364d26712c7f465d0ac5597a309559b075406351a20977;
 0x15a4e4728a197dae6303d0cdd2b6d1e4114a9fad38a530bca6fd06ca1ffc1f56;
 0xcbfd63f363978c387d656e93f11e336987a68748c8f54f385887e64b1075598;
 0x1fb594474b8334f9aea6fe5e323fb0e0ac27d2895921ac64e93e524e4ffd25c4;
 0x5ac55361da931c1b4c560aa8dbabc8624ba225871bce224addb5af901676aeb;
 0xe7266f909395b5d42ec298ad3eb73f6c11149f491164f997ea76b64282b9af5;
 0x1d928ce916ec0178a2c0d8a890af90468c8af68c4c128c68f042cad51c6d7895;
 0x11521e378f229844263410fe44628fca9ffad17eae9965dee900ef14a4d2d6d2;
 0x23f3ea3b55ad3710a0052d7a4b9c9a65456ef71bc4eb16c1e908034b3cd3b2d0;
 0xd4f972e795bbca8623bb08503764a90e4384be644f57b4a56f1e7e1548922bf;
 0x2a53e60ecb9c00dd99692d57d7a54d893934468203995267e83954859d21b595;
 0x18583bb0a83ad2e710369475bd54ae1d821d75a9e1e870df11c154f41be1a632;
 0xd45688dc986f78e71c463b76ed2c056881c76dc552ccf8d3a1d795d7682efb2;
 0x1448256830ab79d2618c6ebc5af5624fd064e2a16194e5a0c35c76fcb094d371;
 0xc0c7912bf67c273baae265c68f378a3fc06eed7778ba6ad3181428bd55a148a;
 0x900cfc715edb109d3e6c02b7a578326f57efeb3da6f58e64792dca3452a55f9;
 0xb84b851d9d0d621eb2872fd75b848ad6a905911a988b46a3d0d70d264c8790a;
 0x69b8105bc60bee13097c0fb14d05a1b932d37db703f6ff557675bfbbda8a5b0;
 0xa0ad082a6226840334524022e1d3c7168423449df9c2ffcb44cd9d4d2302325;
 0x18c350500a7bb9fecc04b286ee0ebe76cf71281b4463dbbcf8e266221817d32c;
 0x2da317c459c0b0d973e04bcca9c112726c7618ce9760c2228c308b7433d907a0;
 0x232a07d1aef79c1113e3ffe7094ac379cd67c41981b9dbd30dc691eddeddbc6f;
 0x6f8ebb8cb046c0aa7ea795744cefbc827e5727dd16d0f27675d99f8964492ca;
 0x10db78837d0652586afa0666b721e1c94180173183300992c4602c8c1c415478;
 0x12f5fb7778fb2b8e1b5ec306d3d8f2a497ee4e9aa5bf1924a694d04cadd5c526;
 0xf6a94bf66121d5993932988636d0aa2479e0299aff2cea5b7efc311a15007d;
 0x18b818a1c250d6f8b77870c1ef5942250214655460e4b5aa09c8066489041732;
 0xd25185fdb4a3c65e05963b80310584f2a6069c2c0b07ab2b6df2d04bea0f52a;
 0x63666f719c9dacd3ff39599926802bd9e07c61050b10ee79adf0da04c59e8e2;
 0x25f9e2e4766cf4b7bf91a63f7dbe954b2ffa4cee7269933134b5309eaf9d702e;
 0x1237a2bfe7efc853fc4e9c4fb84d8e7c56b125286d8bc81a5434c6d8737206d3;
 0x149b17921a60f02551a03ebdd0a3a71f7048d0f9f47893075c625341ae06159;
 0x21e129ee052da457e94cbdc1ac5738ab300aabb76a3cc3c23637cb6221874630;
 0xffbccf818cccf47beddf8558b8242c90e41fb603f137b02f0774228d6978d94;
 0x13018c64072bda036ce65310501ef57816d397a9eba56f87b56024bac5ebe9e6;
 0x1b009f2e8abc03f498fdb84857c2091bbb0095778f990fe799d0f2c97e2c2670;
 0x101546fdb71f32991c1180cc07eaecf47920cd0704691e555b3bc44de5c5289f;
 0x1d1f66a2ec0621f229c3f8cc7b153683d993e220ec5a1f01d42a14db46a785c7;
 0xc0d0d8c79f76f62eb8ea785853ee6aeaac59256172a14479d34101dc8e63ad0;
 0xa3f038a5f37073c1ea7a4edfc1dcb60859c1218e1fb611ba59dd245399c9572;
 0xb7e89abaf697afea2ab793f7cbc3e807dba45231d4fbe6b657a95f03f1b1705;
 0x91c47a22bfbe8cc067f70019ea1a2eaa9b381fdf90ffa8971b247812b977f6c;
 0x23502619e347553b5bbd886ba0ebaf4b63c07c289da07b0c7728fbd6092241d1;
 0x2f5d5281749be90119354e751ea126e578ccc43a4c372d67ae66d87c0c01336b;
 0x1ce6855b5db80c42971cc52c9c35275e8bfc7705684a391bce4151ad9fcd9be7;
 0x4f03f23505d6e117603510ef25bf46de44b95506011b5642b120b76c4a7a277;
 0x2f0f36a6ecd8f53af95b4b9514997ae0a208d89e974bd3359dd98fe2e2b3d41;
 0x1cf3c4ff9ab589d0a5660b86b5fdf8f38ec3ca5e92c445bd4cfbe6c70de64929;
 0xd907e14510611fc14612e406616cfcc0b3b1258278d802a5a3d7dd785284e63;
 0x148575fd984cf84d0f3dbb49564b397c17ac817e6ffe348881321ce76e35c44;
 0x13c32c26889cbbfaaf4d1f25e64bcb720e1cca45312f90fbdea8435d9e6729af;
 0x2f28f702d684198114e721efafb6922c3a42dd08fbb1fd6831902df4b55a6a96;
 0x5fd91ec054800f61ee128bbcbe332ec4c4eb25bc57781c436c931d5a44b6367;
 0x2a07137e0211d40057d39d707b177cb576f3399b29b9a7019c3dfc7d7a22d27c;
 0x1b9592c1a0852470e5fa045d32725f7ce17982505aa3317a7daa6cb31e3e359c;
 0xcfd305387cda42a1f5a8e00a0ef5286e0504738073dcc8713a43c2439c170c1;
 0x2e10c62b1b5566b5047f18279f4680073494290584c69708553c7729b6a04da9;
 0x2bb1653a56221c6263b0c62ab8a0a773d225b414a984994b6d3d5afd0892e67d;
 0xf270ab89bd220ddf62f18fdf8d278f678379e7b616006a8bead9fac9f473c70;
 0xa1301e2c189208513673b88d6b3238759488f79b99a79dd11d0bd1c973b95a6;
 0x24cb02fc34a8ce75eecf534184d7373b7e1c90fb5f7e24fbe8ec8ea1ef54e393;
 0x1603165537fda2e431b75d03df01dee7b39fd851a472243dcebc2c96d0deff54;
 0x287166d87790f5cf540ecffb1bf65acdaf18cc46a4f1164b5bc0778022e11a18;
 0x2a81c998baf847bbb21f7b7141efe84f7ac56a834c7967ea6f45429fa2fb1a5;
 0x20c95c47c2ce176a500fc18e5b798ebf4df4eabeba1d695fe217e003ac2f0e10;
 0x54cfe239b46d49baf4568088a72b2bfed0773be27f6e7e9a2c02bbb1ffa515b;
 0x8774564392fba9a0289bd2012b509bcc7b126d9ef3378da0769d8af37cb44c7;
 0x24a7f216983732c11ad301538184100e2cb090742dd81c09783918404f1c7538;
 0xfafa523ca9deb758cc5c0f54e485919a3b1c6caab6f322a36b014821c74645c;
 0xc8b11f331a17d83848b10efb6f8716baa92e649d9ee1c9584b334d0378b5318;
 0x2fe8b8a523a08c2e5ea7600b7876fa4b75938fd56c03c74ee2b60b9d1e8299a;
 0x1d039ad8acc6c9515c4b4a78f1b8a85784c287d5fa0eccef43901435c1c41942;
 0x1b89217c5104374c0b74a3a3ee0971ca583f59d0980c37566ef8ef363b1a417a;
 0x228b4d065bd84d6104e3828caed06fe9aa11d7dd8ea90efefc28489330674b2d;
 0x1d57f64ca6fb25d9a4b65736683dc6f8f90b4d5594fcffd6034443e98733af72;
 0x11ece5bbbbb611968ad64b52d89d7ae5d1eebc4169217e07b99dfdfea0fb69d8;
 0x21ca2fb7b186974b4bb67f95f943a07adf662eb02c7392d9f5e7526764e7b986;
 0x1f47138d833b0c8cf6294ef77d0ebede94ea57a28ac0a3e64bcb5df91320f10a;
 0xb95be5cad31b06ca97ca74289d89772aab0e8007d0558228d88f11364a1496c;
 0x794a48d6d0201d4b3af86c0fcd5479391f98f75623105f3e266dde215d76157;
 0x2455a03e833b1dafa17f29a71fd76f94d8c5d09fa1fb1665373d509a88f3763e;
 0x799ea93d781c35dea4b487f9849ff1800f1b63cc97842e2fde69f547bb76763;
 0x28fd070e349d506942cc217a50064cfb2e3ebbd3cde16c09fd68b7e4eab1b822;
 0x1cf5001c9cfcee852fcb9f8d89e19e336dba95bec545410f4435b5b01f4b80d3;
 0x8edfc4e49ac404861074e34237a1b124e4d8e5d6ccde29d1ee9c043756c44f4;
 0x2ee5b6524289cdd37ce4ccc8dd19e94cd2ee72ff264b468044bda8227b110dfc;
 0x2775a93e2b3eef8dc0bf9bd322e5f14281eb5bbbff98cf7ad93d35f4c4392624;
 0x4c564ee74a1199444d3dc4261e90b1886d760a7fa68ebaeeb5b5e353684e24b;
 0x25ffe7b20eaee8f694fa81039440b5c63eca1cac712f5e3b21af1b9a7be117ad;
 0x14a1035368093069b2a4337027fa695e985b6e56ca818ff944780c1677a836aa;
 0xfd53ab1fc6def97651d2d66d0f58976b39d07db8c4c9ac195db0dab73060274;
 0x16476bc3bc364193912051b64c939c0001e95953c76f7a748957d78ccc881040;
 0xc5a52339fd84b1ecac4a163b36d41941a156f53b2559061602e64d2dd031039;
 0x21b63c30dc0baf2b71ee86b7d5c91da1c17cdcebe5a0a0e5f2c8446584e05c20;
 0x1bccca220986d8fc3d22391a70bfba575a47b4f83230652e1772e2dcd1a06ed6;
 0x162a9696d6df2a13038e0bc6da2f52239951a204bd05a9e2a09066cf6b13a6bf;
 0x1d661af4be59bd53da92acdf5736a7dce50da796c393b4e43001d27f88d58d6f;
 0x1fb43feff48b0a4e5ac9b17a6c93e241f17b5dfc76523b65dc366bc04c9f06b;
 0x1e70af5d289fea2ef26141246e9635fd007be3c3d755abf3bbcda9c4e4a600b1;
 0x148928433fc03d3a878b420efc8954f04fdd4958bc822a6123df1d4d15d02dfa;
 0x61b30453d8edaeb5a0e7a3a9f951a7211a50fc360903c4b25a51e4e36dc434a;
 0xacad4bf22e14bf31537f39286d25fb493fe67f163bddebc3e94de911a9556f1;
 0x5a4dc602f73e13984177dc0a6f2d7af269988f872b817c837c8559c79b03819;
 0x1d1f813dca1d8f54d73441c814ccb0e84beae8ef4463effb612eb6ad131cf05f;
 0xe82c3574b61d4c239a3024d6822bfa186d5989ba1ae0597092560e8694ad9ab;
 0x17ea9ef9ef7da806c992916b2409a277fff09d36339cbfdf4687606793fdee9d;
 0x19454e5c7ffa9716bd1db5d707d4d24b909f4c718137ebb73a9661ef41a7ce44;
 0xaf8dccfbedea2064586771a23ac776db9ac4df3787fdf857db4a2193e934a3b;
 0x2748872a6ad3a07b30161ae37440d5dda279a12cc2ffe14747bf9082e72630e2;
 0x1a529a39f6519dcdfe38e311c7b0f661550e388870772650e1ce02135bdae984;
 0x8a57affe13513b3bb19680381a17f82101be9f5ac7be0cf9c7e61f710e63892;
 0x200d13b0170c124a25026f780273c4f557a3e95cbd68684e4e4df5ec00610f60;
 0x14c79a357f53469f91d01f4432b728551db863ab232525c2d95cf616f7a098d8;
 0xc513fd43af43ec6c905092c6d5d50aac833f144b9630e99483a83c3402f4832;
 0xab802177b395f6b6ad3dc7d1995f60eddb63e9c378a75247a08002d2986482f;
 0x589d228f316da74fbd8f0806ba45fcc1f31dc452e37430050bd9cb8f3e0acc;
 0x1b46df6f8889fd075b585d61925fe1f08d15900074bce706ea5fb211dcc63d43;
 0x1d2b938132acf70f122b64ae172ec1a822ecbde5a188b478e789c5c3e91cefa1;
 0x2308c203544d162d54a4b87d92102ef85cbbf1ab4c3c02d6642af038730333da;
 0x2eb7379bd69996d813136c99c2e66f45ca467bcdfae03a315cfe39ea99eeda3a;
 0xcbcf8be09e77a9b7004faa49c560e84077038326398196c04f948d09ac57388;
 0x72ed6973242f117e5fc1c344d9bc38d5fb3e94bcc02f48843a057e19bacc917;
 0x6670c3a568d7efb7f10eaebd727e7a424a5e2b40d7201fb66d0b74723081ee4;
 0x1e2105cd356ebeaaa12233233a2a22e0524c822b84fbb368b409d448192ef9d7;
 0x10f3092cb126d913e829eb1e09cef850812658485e5ac06c140bd1b549f53907;
 0x2bcf1b9917cb73d1856ae5dad349ff08660e800a5b69a959add19af6558884c4;
 0x7bfcd988feeabe2fbe03ae71408c1a394daf2943c8d32e41f6b72f2493bfae;
 0x2a977dd5735a9110178e2bb0989c7129bab2c6f9276ff1a9c4b3867a115b815d;
 0x229f01e653f7b280153de1f8d4e9eaa0e18e81c3ddfe9cf0f5185b63dcf8f3ae;
 0x272ebef10616ab9c79e34eff00b0faea7521fcea55df526bdc9e342592da9469;
 0x2c8a5085170dc8e626fd9f5f1186f99763976ea6ac08c253d025fb46e1526c7;
 0x2b77b7c7f7b862b6bd45b894af1cd1cca444f426d63571ffe6d57e608f12441c;
 0x1518209639e513d5623184871ccc1a02e82536b68d48395774930dbd4f130ddd;
 0x2417244fc99acce8d1da6685df7e33876bda3dd632cd684242a60d54555b0ef4;
 0x12dbd5616e93afff056e7402afb361f5753ed668d6ded08cc8be3febe58ae3d1].
(* poseidon_bn128_constants_opt.rs:2641-2758 *)
Definition bn_M10 : list (list Z) := [[0xb1e797eee3f15b88ce3a1fafec88da1d6329ac3c34712db570de886cf569098;
 0x1abb95b6e33243a050e563b5c4fd059de5513ec28994a6f60e57c98d3bc8f586;
 0x110d213a836478aa301bc1fd4edd388507d87745b3abfba5bf282afd21f7242a;
 0x18edb2d105bb53b768ae0137850dc2d2bf6d1303a1f8ee4aadf76d8f81990588;
 0x1e53e92df6c53ecec4c0de5b07dc4c9a0c5545f2abcc1fabf4ccb84a0a6e2c27;
 0x10fcb817e10f69f7074e64c393b807cdddf33c84a8b5cfe33f44b73fe18c0e36;
 0x2b1d8c11fc652c593543b6f9800bb7d0c9371dedb96f08bbbccffdc6cc44db98;
 0x19f473e40c05676d5f8d51e11336e9c65cb32828c397cc8125f1dc667b6cadf7;
 0xfcf3a4d9c6c3392de1bdfe25cfb86817ecb80c51be17d47f79750201f1fcd01;
 0x23b02d00fe2634889673a7d04736fe15b9f62652b1c0626a19af8d6085d70822];
 [0x2fe429db8068e61b82624f25766273cd9fe6368ff097eab97aaa09be4c630e27;
 0xa5b604c958bc90071ad10618b1772599e0c8dddfb641131fef39daa58a39923;
 0x2cdee0c635a4fcd9549f0f91b4f4a9b628aa7319e2eaa094a693b38b5cf9a242;
 0x2c962d7d54a98c3a82a638d8c82450813f42071a17c6c05f470b44958f57ef15;
 0x2bc761185f59efb7b67bcf1d3e54da00daea067fe49e3f1d9334e5470438b454;
 0x2e450d1fe7773c9889a0be55e44453bcc844c94b56fc0bb806eb9982ac553428;
 0x25c0f87c946f375e341f72f6a8dd63a94e86f4ad182715bcfcbf2b28df6b4a0d;
 0xbfe6fc08e2a2e1b8911ae065b985388fcd105a490a4ab943b25558cf3d054b6;
 0xc182e438257c4ad7e7b79c3b68d60984e507ac597cb47dc31d913a7a540fd9a;
 0x2ff4d0b8798a82667793533730083c25223d589cdd079362f1e8c2e01d54476a];
 [0x2e750867942439083365d21fe760c7dfec9e3593c67de12a4255c6b01648b690;
 0x24e82df5873953792baca345b7c19f61039adeb1190592bca18cf4f907c1a6fe;
 0xd60f0585755d48577b465746de8e286e49925150f1784f29fb6b96dbd8f0ec;
 0x1f495e93014314988dace5e4e867f5109e09fa00fce87929d1e0ece95a449345;
 0x124331e0ecb1d9808a1d91efaa98950abe930c46fee5a30d5ad07976a5bc0263;
 0x2f421fcf54d77dd38930cd69076f9baadd3d3f1947371215a66c894d637e89b9;
 0x543b2bc66f3b2d93d4c1882039ddb37c70c0b437ac23ac5bb9868e6df24485e;
 0x203d9ee6462a586914fe7dbfc1bfa29773b7f9b3d63aea4120c601129c16660f;
 0x25a1ecbd7e7893f646f35d3e07ee997c94354737884fe6c26ae8155760db8aa;
 0x1d897f60e87fce5ceed8da7f2f4a63fdee7ff9dcf179c08e05e9e5cdd8238ac7];
 [0x23237985a96b177ff7c01486ab0d603d29991b8324abd6b07dbb96f5c21ba17f;
 0x10e3349eefd3a112417e110fd9e832078e54b5f4537cd018aee3dfbb90541581;
 0x2168dcf216d8369a626ccc61453236a389d02519f3052e87eff9ccb8aa299c46;
 0x262903f36acf0dc055f610397df0794fbc30927ef185c6356bc33e5c31faef9f;
 0x46887724f29321895c2ef8bc0cf545df773c04baa097c352a4165395cca786;
 0x13276081db012d1d4f4b7dd2d8a2f8a5180d2ecc33854cdd35f9ceb07bf40d53;
 0x2dd117218538e8acb0301eb40adfa2435f5bffa8028ff52f96a99d77fe927066;
 0x1b912abf2e1649ad4834ca5b2a3831cc9c207d4d08e4bf274a79dca80e52fe24;
 0x20135ff263867f708ee0275170cc9788689c088b2933a361c775cf430748ef1f;
 0xba6d4ceee2182d3f2ab2e4a3ad08fc31f7f4cc0fec91ad53e92bf8ada3e278f];
 [0x15ccec857b25934ffd429af92c910db31d00dc1c3fb83745a31d8131ea5baa85;
 0x165adebe00c7ba019499018c96f5c5870eca5679c90c843d9527184a525fcca0;
 0x3530dd962ef23dc16f79b28c1fc1ddafe9458be15174cbbbf3a806de5f63cef;
 0x1b7e922b3dd503e6441ada966c8b3ba7b908cb2b98b5fbe1e4c2fb982455baa2;
 0x247460ad4580a18639eada69b904c91b19f7d4387435707696c40bac3bfbdd33;
 0x144d5be38d44c5bf8f3c5735334fb1a07c13702d86af39ba0b4220ec9a7568a2;
 0x269b06b31e89ff132daebc200efdc8ab068136fce65f2fc55a1dcb939b7fc6f5;
 0x62caa3c9fd39b69864faf701dc8a4588571cb31bfd5c9c3c59dfd97e99f701a;
 0x20e160f772998a2f7d0064c7efa15884ebc6d8b71821cd5336e2df14341c95ee;
 0x5ce94b8e9a60b28947710461d87c7757246266ae8fa5d3af3ea81776b5b8c07];
 [0x17102ad2d98043e5509e76c331e6b22d5fb62d074760806aa675764660eb56d2;
 0x1fb81218feeedf4e7e0e33dd8ecbe62d65c6b7d4233f32e073571ff862d89c3;
 0x1cedc6d4e1476741c1099557e58e642c42892aa36e2d0a793f670781a21b0dbd;
 0x1a88ae2fde12ba32e5f4eccacf11c25bc163bdedaaa8824474cae5869e5ec20f;
 0x265412a4e3b5560aba502d20ed833deff707b7d425ba3c09f3b6392b6f1f4339;
 0x12691b599d32edc48ae99c7a73abd59e5b18f4bf773fa1051cabd2c49aaabf6b;
 0x20d4401cbbf92877ecf616d7d28551cb0aec552fae9518dcf9218c38c1a0bc90;
 0x138c03a2ecea183cb8f265eecd7e93275b0bb98297c1545a72197dc6ddd9335f;
 0x150df11291b680e3ba925a0471c7fbb30e704ab4b554ea5d8c07b70b2b96202a;
 0xc346b046af03cb9048c29353e1107d6b75e590bb2d422ea83c09a5da1ba0c65];
 [0xa4ecaabde9d1ea11c81dafa8d5d4869bee7ad0bf4eb78397b71b8f989cf9812;
 0x1be2802fbea51003aafae82ff4499d1158377b108f8b020c82b8460a8d603afa;
 0x269c8c139a4f61e16bfaae9e8bbb1c69808c9071083b0a339dff9e4904b443d6;
 0x23407728269c70fe712b021915059dc8dc2124ae648e2cb549fc76362bc2b97d;
 0x2ad06fc9f81684542e0458aae19c0a7c18be94f1de3fce6a3e5d2335a01e90e;
 0x578a55f0fda29909b9f850c3d74be6668e4444ac691764f1644a626498218e4;
 0x2ee2da24b7f8e7035fb73b08c3414833ffa38e14b1faac198a860a5767d2feed;
 0x11589959fc2493292fb6c50730e74994ad7cd6d3533c3b00a57dae833cc701e5;
 0x17572029e8e897202d0e65c2172c571d4b91ca856e7ad3f118ad922127b87054;
 0x2fbf8cc6ec7efb30106423f2e67b0aa9403360e56e88b6c5cbaec34a80bdc7f4];
 [0xec1821648fddc448a1512aecc8ac37714923981940f5542737a468d4d887c8f;
 0x418081de8c2958355a1e45e28ee51ba2c66cad04835f4fbd81e696de6398769;
 0xea7bc52503e2039d277912e022fd6d0ded5bc687c6ff97194976f3a28bd30c6;
 0x12ab318626d511c23d28baa9fb5b5802e0ab95e3cb17aedbaa25f4d084cfda57;
 0xd1e34192343d66fc1b6591cb6a3b0602b0835a403c7227dbcbd72fd8000c6f2;
 0x12e3b04924b2cf6e407bd26b3cd47bca61d6ffcf7efa1aea1c2e0d8a49de64be;
 0x6dd89fabf92546847b9c13b3a36bbc7e679c5bb0dd785403f3ff49bbe61c8e7;
 0x17b9facdbe747d7c5163ca00e3b0b825d012ed4357604e7185750d677c6b357f;
 0xaff15650b805bff6f8b3515d5e29cf914b7349af8924e796009f8a4f1b7264c;
 0xd064e72449efc11d1e90b97749de3909490b912bb1f72f542f41d62ab2d847a];
 [0x255a493aa4becd9d137eb76941c4120784c1233f6c5fdf5d65c0832af543e415;
 0x1f3e937ab29f3a88c6fe438698a7198a5209aa6ac9f141319f3bb201e7fd6716;
 0x2180b9eb156eb33cad1aa750ea0fa3ddbfa4127296e497f86e6441e052a23b45;
 0x1cc69d8f34ee877838950e20a9d4c4bd3e9acaf3d693aa64cae04faa225a2e1e;
 0xb565179887ee30e381631d8e5dd357c70ee2ebb410617d2321f6d8537f98970;
 0x1162a56ed3bbbb4b6760a16a300ba7202130086da4d5588a70926423ff8c242f;
 0x1360f719034572b59410c529b62a62aa94565654597e42779f33400f1d17d652;
 0xc603d03f92860da8a68c6dcb1924d1a45099aea50f1a362edb2f2a7ddfe90ff;
 0x1a918fc117d9a6445e363ee5833dc01411034b95384d98eee47ae896f92a7d67;
 0x2a88e0c35617665f3cc2fc77d90afc7a8d1001c71debcf2733ca0c71a19e1ea];
 [0x120f44670301b1435249294d9833d59e01682af4c8658719727678fd9ab7ef2e;
 0x113e968769b0ea32cb7b5ff70484aacc96f13dc2827a8e5e611695e0797fc3c;
 0x18cd1471430adad31e45b529494fc8a7e319bd2fc0619c99207dfacdb657bbf7;
 0x23d0fa965e920dfc530b52670b1e32e2d5fc2821fc918c0844a003b7141825ad;
 0x2ea6b32af37cd765d728ddefa30918902a21e19b291400854f56393c56d69460;
 0x3340cacb04d5a85614eacc4be3352938baa3fc714c2575aa9d85f739113c50b;
 0x15ff827e034c02a90767f0152840e7fc6db983e496ea0519c0ff41dea8180628;
 0x5d56f0c844d169248503135e4deb9ffd6329d54cfceed4b947d78a568681147;
 0x2e5618411efea30cc7de310d4872597d087c1e122e02ebb117db0c2dff04fc0c;
 0x15eeb3e0541bcf010da0c47adb12f6df540b974d439c93e19ea4d02f9975d446]].
(* poseidon_bn128_constants_opt.rs:4763-4880 *)
Definition bn_P10 : list (list Z) := [[0xb1e797eee3f15b88ce3a1fafec88da1d6329ac3c34712db570de886cf569098;
 0x2376caeace68ac7d5504c33a2219f5c7c5ad25784cea62a8df008c4fcab50d07;
 0x11738aa054dba194b2e82013feb222a4257eaec8a01f131fc657ee766f408d04;
 0x22683ac3c69cb11bc0879ea8b2a5c88aecb222d25c68a660a2f4999cde166655;
 0x713c79d90ea4f0449b01031fb6149994fc9b764fa494a3b0bbaea522d4e48d3;
 0xc372107400e1f8f8e93964c84da46d78197aa045614a1dd700f1dce65779437;
 0x5abac870bca413db4ef84c71b44676ff7e7c741c9b5e3f3c8efaa73e446c02c;
 0x11c5eb9e0e5c1669df902352e35eff4517033d2a2a946a8e5fd1492a3a141229;
 0x20caf8e87737232b8c429d7f8e9c9827cd7fca92cbc159a319567e646480c7ca;
 0x185ebe5ac788074f48748c8b4f66564a581e615b3df9c78fc5ddb70b80475d3];
 [0x2fe429db8068e61b82624f25766273cd9fe6368ff097eab97aaa09be4c630e27;
 0x1b1d1d024385e8a3b81c435ef9079a52dcec3cf811253a83325e7432443ec02a;
 0xa5f2f19c49d9ae6d6d8acab3a944b93221a074e7a84939dead82506063120ea;
 0xba8903c5a36e9ed67d21b2297f06616760d8beb3ef96c69dc9c843bf52a3015;
 0x2a850b071614649f6e6ea4c4382d7aa9981736848c3bdc0cebccf3bd795c65dd;
 0x20090c8c6b2e41e84178c0700c9f81b1e128b15f65806648c6166ca8769ab30a;
 0x1f9c5c5cd58a682a6155b2db3923cacc1944362035acb2eef2b421fe5bd91f44;
 0x2a2190daf9de7f46b5c80235a0a468c68226c193ff86cc8a6ffaa7033626d093;
 0x2dab478180d47e197cc91da2f1ff30bc0fb35da934ba38c8e5587e005cdc2f05;
 0xc38b0564f60610324268079496ce366271d5693ed6646a6470acef4e779aac7];
 [0x2e750867942439083365d21fe760c7dfec9e3593c67de12a4255c6b01648b690;
 0x77d21c1db0df5aefc4a82442165dc0c6671bf7c8ae708c8f9b6d44b033f2139;
 0x1b974a1b3977e8bf679394da2b702e724d2fde8aa4e60b83c631de610d1eeb30;
 0x12f77c314190ff649ec4a608780c3ef7bd065902802f2bd41a93a0666fb8a90b;
 0x7626c698acdc1e4ec6fd26aa192bb334d96a0f3935e5a88a8d7abfbdade4f03;
 0x269aa03a5af8a48e20ba3147943c07e1d1ac7760edad58d9d03d0f45157935d1;
 0x45f5c794d9706b43bd71f2a4d4f376bcbb76c7276da8fa942eb766955c53efa;
 0x6ff77c4c464330deed91103d652330809d17045c75cca24e8b1b0a61d572af1;
 0x29e529381ccf3f80fc5d54b7c39adfff8c2ebb5dfb86745cb974a21e9467455;
 0x6b50f490125ae0bc287d018d60c4d6752ea3f61ad3e939622c1773df67a7f4a];
 [0x23237985a96b177ff7c01486ab0d603d29991b8324abd6b07dbb96f5c21ba17f;
 0x2b9c40e97f4e7e6eaf4d342b420fcae7bfdebc3460c120b7a4b99240ea0db532;
 0xddfa16097871dbb1337b5ed7ae8d2bca1e5ba44e482df13dc7ad593ef27a5bb;
 0x165e20a2a8ea0382f56df39ade0accaab08fd9db8a7657b74ee54b114393aeef;
 0x174b9be8f359863993e57e21e4c6fbd4b4a4d339d943ede1d85255ee48b3ffa0;
 0x304b87fcdd673ea0ae58bba75c29249f964913b2170aa9f23d4d03894208ed87;
 0x278ec34449ad1c5182395a44f2826314db9fafa533e518a5bf082096c2484918;
 0x301cbe6e44e903ab193531261770925dacc71b88207e18f793f59f69a4347771;
 0x20334328490fd8682bd47066200b77f9509a72a11f2d91d456220c629280aa44;
 0x2301d3af42d47b43c8a8052646c069e046ee7d180c62a5d36e52dd6f215bf37d];
 [0x15ccec857b25934ffd429af92c910db31d00dc1c3fb83745a31d8131ea5baa85;
 0x2655c9fd294d40b9dbb9566609c264c9e602c777c8701b1b2b542a5f08cf976d;
 0x29898ad417130c472e0c1da3b017f7166e3a3eb80481efa32503e81a3772e5e7;
 0x1681ed2917381cd1217a0c9a2f675353982a438cb3e9108fa5b2048e6b7e32de;
 0xdc075092f8f83009ee73cd35e511ac13eedf5e3999f9bf5b41ef3e1a15a8fcd;
 0x837fd755c29dc2c29036c497fcdfc23f95c7bffb90a62db5cc43a25e20054c2;
 0x19d489fa1fa1ec6441b82b735dbf0b84788c542263d4c1ae5335e49297ed4bcd;
 0xeb25d1b0322624190db666759db3c82bc9718a990288d865116787e8c527351;
 0x19084cece4945482947cfe51a1f6f4e2e216f5b54742b9d71cc3840bdcbbaabd;
 0x3a99be2c75989dccb246bf31a58f88dfc494ce2569c5d8b18a9a876317ecef0];
 [0x17102ad2d98043e5509e76c331e6b22d5fb62d074760806aa675764660eb56d2;
 0x795d5914d87c0dc8fbaedfd46afdd6451258f80779112edfcdf1a71d23af4df;
 0x2c202548a326cadc3ee595a16a2c2d54ada779390f7bdd4c4fc9417d3e463d03;
 0x181db647369841eb58ceb7a1b9ef841a7f3358cc6f224152dc7ad3c1d3b1c1e8;
 0x26e7aa2ef4c91ee3f704849f4c181fb83b860da15f62f2250c792e0ee66c0ae6;
 0x17189249537630e942f5ac39c1498bce39996c15400d052dcb6cb839aa45322;
 0x23bb4a76f79b77f9f6b4940ef2538c7d60d69f1fe9922d66cfb92af9dcd0867a;
 0x1ab80a8b5fbd7923f0cf79707d56f7677d1071e924cb497486766a4c4bd7f6d0;
 0x1f8f4c40a0cfe0d05603433a0ed2d424c7fd040077b0a1642c25797c20d22d16;
 0x29177f698bc5a897ef9aa6b915189f689efcfd88f3da8e60b84b9bccc2ae33b7];
 [0xa4ecaabde9d1ea11c81dafa8d5d4869bee7ad0bf4eb78397b71b8f989cf9812;
 0xc066f7a1e10d00fd3e97cd8c67212c28b43423b03ca4ac03efb4d8a376ae098;
 0x1a6947c4e87ca0c30ed9f47004e53b7a45455b14da41f79045c2405d2e3cb859;
 0x2481ff49ed6259def9fa646c167c8864061c04cfc022051f83ef8a3ef8db5819;
 0xc13692adcb86437a860d6296d74b4253e790cae6f41683b99c1760d09921d37;
 0x27a6be35c45e5f46b2eca0aedd98f67638b6645acecf50351c5a9f3c428b0e27;
 0x4660af4e63d1c9ff6f059b75dd870df938980e43985c5607a38dc0ac8d273f2;
 0x2eb8302f1381d9118d9c713d50e117f92837dca8a8610e9de759e76e8ee987f9;
 0xe9f931dd923dc4398ac12b101aa7b5e2a22f09caa416ff8745821ff165b07c;
 0x209945fe475f6767f668abc045e0c47ae6cb25cdb1efd5586da6c4e655d68e82];
 [0xec1821648fddc448a1512aecc8ac37714923981940f5542737a468d4d887c8f;
 0x1049076d8dd43ffc6f4ea10a82dcd60dcf4d60a2125a1b4d8c4ff954e7da3380;
 0x192a1bc8e7dd6203116a0c40d58111850edd5b50f9d6e882d16f95fa6a76d80d;
 0x1beae2daa2a697afd9b1388dbcd6c93731fbb4eaa0fa439f92bf777769055293;
 0x1a31b8769a838df03348e01462b564e08849955efb968d1f41342f02fd627de0;
 0x12f1bd9058590ca45a76e19b5891f5bfdc95d653394adb4f32090c60505de408;
 0xaac3c820280c7658321df7aaf69274032fccd21be96174582a8c0c9de580068;
 0x7c216183f03a4b7c77070c68b3790b31b5fa6d1df5ae42437b6a2283d5b8891;
 0xda9d210a43aae4d13625782341ece1d0221bd6ee0dc4a639b7f13a6daa3c93f;
 0xc0d8ee0a08021baca7a5799ed7b03734e4b9bd35430279d3f7b2ed473c48c6e];
 [0x255a493aa4becd9d137eb76941c4120784c1233f6c5fdf5d65c0832af543e415;
 0x19a05dc5bdf1243b57474519b375ba67bd83e122b095e4272c14f9646e733666;
 0xdd31347136b2eba27f0528eae1c25a710c3707bde9dff3d76ecbe33f188bb02;
 0x248cdf26597e0746d01d8b7ab0e9f88aa452d90eeb039dbaf586563945972fae;
 0x25718cec512fa137f8a5851510caee0dd2c000af55af09dee767e2084796a71b;
 0x23688bbb9cf13bb7bb972d0d18d0e05c51bff96ba5314bef0af2d912dc5e8d1d;
 0x1ee8c54669e6f0ab1fb6a54c809d1fad213e8ffb7a7b40387ef594b7cf50f4f5;
 0x282e578ad2799ca36191b37835889bca6e2e8bdf7e4412628bed5e39885d688e;
 0x831616989168d514c0fa151fc3874b8cedcf88d27185e7e037cbe93391022e7;
 0xbc5380f3490175b28f01eb5cea3914924df2b1f745d33a9e39ab872b19c4fb5];
 [0x120f44670301b1435249294d9833d59e01682af4c8658719727678fd9ab7ef2e;
 0x2a25bac660d90d85f22fe81abdc80c403a86e75d4f1434ba2eda3184dc5f2833;
 0x2d19334d3eb5a9781f3b8105b0b1131ee95d4012e7faacf71864762b6fcc7011;
 0x267b655f26896341492acd89edc7ae96dbcc24161d1e73ac652ea55d61efc3e3;
 0x1d9c8ad973feacddad16da2be2ed7eca235b3bda01521da956f1c8a7d65ea58c;
 0x15b9ffc66af5ac2aafbf2dcb199a57bbd334c9f971d903d7da7fd65e920cc9bc;
 0x25814a817412e861b4318985ff3cb706db6e56dece08c2c6dc20584ed6fa6c7a;
 0x4190e2e1cf613602ba331d0185b43c960ff5c57bc2f86f5c8bcd84b95c789a4;
 0xe3999f52ed0ec7f486ff150acc84c266aeee72529234a010988f95a1b5885fd;
 0x1fcfdb43cbd7992f0088a9a85c95e4621873666105510f25ae576bc08d7f2084]].
(* poseidon_bn128_constants_opt.rs:11407-12546 *)
Definition bn_S10 : list Z := [0xb1e797eee3f15b88ce3a1fafec88da1d6329ac3c34712db570de886cf569098;
 0x199593eecc85367004177e717d8adae09206aac28506281403748f85ebe9985f;
 0x8dd94e1b09d8b9823fde4d4fc4a3794d631616a2c192a47fe257bfbdbccb7d;
 0xa0cd01bd7b3c21552ee7c0ba8783ad231802aa4f847d00de820e9176e227744;
 0x287eaab3e59c1cdfce30b6151543b6ef49a3be7206f3cea62db4e80fe1ca1529;
 0x2a8230f7ed05f7e334f91cf214c7bf12852996083c456a506eb316c249cfb4c8;
 0xa38f089600747a6b6e35342c2e321042ebf690726aa9431031351cbaedfb5aa;
 0x1d5301168a7dac6891b7a9f6dbcd505fbf7522f875a61254149449869d316e05;
 0x13abafc765fb2e45f793640bd7f1ea2f88d202f0d7b4200410cd96128d3ef472;
 0xda7e244a420237fbd8730ebea03fff45156a52ac87b9ff605ff1ba20f7e83fe;
 0x271d315532755b1d48814699af18654bb310bb94d1258dde0e589bcc2a5e28bb;
 0x12fb6f92ff04b5d5de41c9508842798a8b9454a99f0cc49a92afead482e84bba;
 0x24cbf9280b713f95571b177799a76e23f555db290a1187aa5ab7db69a2dda2b6;
 0x18f43c99a1b72e7cbd6fd781a46c13c38202b4b0ba7ee75cd36fcb79b5ea67e;
 0x1c69528b3df94c6f7e8a794ea0308fc165f1bc1c1e3ef090c7aaf4405f7cf3bc;
 0x1cb0d8aa6512a7543bd8e8bae1c0f0d2db1b3457e1bcc0ffd372d4eee3c6fafa;
 0x2e1fce1597591bb776ef16340aeddaffdaf039487cb42bfa6752a3ea0cfe18f7;
 0xe486a7b7cdf0fdb88306d96e72161d4549b281152c6cfc98d84b031e95ca166;
 0x1141e26a80698b742d900fd1e734839d51e4d50e0176303a675809ac47201782;
 0xb1e797eee3f15b88ce3a1fafec88da1d6329ac3c34712db570de886cf569098;
 0xe3f8ddade546278648095cc835e94063972b1d55c6414506592ab57e54c8042;
 0x21933a3bc4989347b0703d7cdeddeaf6588a166e6a3f984e318de63ce674e8fa;
 0x2ca6f945f5f755039c8e1bc30935de1ad33312a7cf325b065f91083cfb001a78;
 0x129a9ad876815d96566600a97d41f958d7df9ef97291de611d28d7d9b2af46fc;
 0x26b8f200c0d0371558755081221dc59767afc5a4ddbe6f7d403c5ccb4035289b;
 0xc7c739377b0ad2ff9d3b0a8fa53e39c7016f049ea860e8113b055ec96ee3d64;
 0xd17a36749f8f9d493a0a57bd87618c969cbcf83edb4b207c89aa5ccb3feb20d;
 0xbcfe1266d757503881d56c7e64cfbbc3cb6a47ef4e655565864e01b9bd3f872;
 0x13f89db06ca471b07ac0ad1f4448cb225868b63131700d1ddddda16e6d5fcc7;
 0x24d344ea0550d7720827b6be6c09b027c8e4ad104d57d57771c258177a302b8f;
 0x208ce89913e633aea3a855a854e7daec40afa1939dc1f728dde6b349e39ba30;
 0x1fc4565041d810a750e306a14d21695074e31eda2baf0821774add15c0e2fc3d;
 0x2fa22f80d4309be21ab298ba4bc16a5b20f2ce8f3ed7bc3453135655da269649;
 0x26f3a23903d1e7d835db70f3005b3d5a67043fca7eb62aa8d78942a0c1cc8add;
 0x1ce0343fae8a12e25f2391eb038b2377e7c0c21aa60100818539d6092eeeafb0;
 0x244a2bb870f1e6f4ba5e20f1c225723f305841bd0ab932b7334990cb0572c33e;
 0x1ec61e9126f4c8fd6f0d00b28c5f02334c077e99ecb358d2536b2d321cc00aad;
 0x18b2ab087e3f0a7fa8a6bc1687900a5481ea991ffddf017ff52a7f371c22db87;
 0xb1e797eee3f15b88ce3a1fafec88da1d6329ac3c34712db570de886cf569098;
 0x140b91ca0e53110e898a67ba8853d04821952e760e56de985180975ad237ea52;
 0x3385f50412cc6d4caaeab9aaf1099e8c3c61295754345534a1476144a9c2678;
 0xcc396f0b80e2638615bb4a250f84e54dfe33ce76386edf22da2dbb233546ac1;
 0x2810d8ef50de86e04cd8a07f6585a06eabc4ac5efdc4410904d7a906ecd172dc;
 0x1f8b8501e9db678cc274b33246e39eb95635ac4ad2ff759a9201ac0c3f16c12b;
 0x9b10e50dc0703b65199c6cff8510a9ef2172545f366ec2aaedbb2f5ad4e391d;
 0x158a6e9ae44d1ebc7fb99b5b38e5139257c68f0ddea96593ff7a87dfe79cbbe2;
 0x68dba3eb9f1b909707e666c1e7c745192f6ec2d8439c186faf6d3bb978b42a8;
 0x100be98775675cb0864cb56fa3f82b66b216071d10cdf87358c7e46be055c723;
 0x1684c4b116063b5e05cbf4eb9b3a6ba6d68ce1f30ae3978e1bbea7a71bd20cfa;
 0x678cf4e455f8359f498a22b87a3dbfc50ce233cbbd99995cc259e419899e53d;
 0x305d111beaf3f510a104ed93aa254f20a4c539eeca95756ae03bdbdf0c8eebc1;
 0x197b0550e8e09c375f4b1976395ae6051649d6c7a8c39b78676e45d33a8630d2;
 0x190712928fc6ac88f24cd9179348b4a2832748dcf708e01c50efcd32e2b83de6;
 0xa77bfa4113e98b47e8d705a9f60160ba144ba344c274744f135f207b24929ef;
 0x2962a7083e7830d287de0a3436cc093e0fd7c2d9631b4937ac124d58fe3fb901;
 0x91a715976bd99e40777c119f68ebec701e3777cc9b9e52602588a5ff89583eb;
 0x61e3488cc92892520449518af4f4133b52412a19fb8b98d3d0812dea2636e3c;
 0xb1e797eee3f15b88ce3a1fafec88da1d6329ac3c34712db570de886cf569098;
 0x197ce59bc87f624e9629b7383452b9858362754ba76cabd0e3d3161eb8ca76d6;
 0x276e2e6272ab2858142f0ddaa038f436e9f4c53eb4d5dfd8812cf10ca5bab1ac;
 0x9c49831a9e1c453d072ce83e5088666b56dfd1ad0977b2abcb2aa9ec83e2ca6;
 0x2a4aadbf31a1c58a26626ef9de341f2268bca243eb859a465911da18af0173e7;
 0x21b0460dfc8645851be88e96ed5f67cc2ea5ee00f4f3025ec4b5253494105a47;
 0x120a8288745f9dc360cb1d580b012b52543030b53b9b97ac9324df79fc46df06;
 0x9f0d911f5eb1bbef4c9ee96c2fec0b0c00945de4706b4cbf64f62a02015d7c5;
 0xdd0124d8c9d7b7c202379a001263e0522ce49d1081f63816134ad16bb34277d;
 0x2bd803e20cb341debccbad79b053df6e53f567874a52ddeb9422758e73cf6ec8;
 0x19b2b4b0e24bee790fba0867847f947f975dddfbe3c11b4c566ed4673684c0cf;
 0x1acda97c75929ac11c21cb081f177a6e550331b2670e6a66c2793e4ca4bcc3e1;
 0x251c70a93b81276ea3438709b96351fd8004dbee0abc0df79329caa4d932bd62;
 0x28918984ffdfc01138df3fba5221a8604c954b7ee40de7070fb0e34e7038ea3;
 0x2ea1cff24f208aed6f4da7cf837817ebfb6f545528d85a32430aba357eef776f;
 0x15b61ada681df7de801547bc9937b1c2e75a4f9728cfb5586f765b058735ccbf;
 0x16a4ad2b453006d9fcef31919daf7ded6dedff3c5b3ba4fed692e2350899167;
 0xe8cdd7c3d33927077543bda5b1777f6369d06876b8636cb95a9060c7936be90;
 0x26152760e5dfe9f0a2fe901bed5e0dff3049827e43a1091e24aee4d457490a63;
 0xb1e797eee3f15b88ce3a1fafec88da1d6329ac3c34712db570de886cf569098;
 0x1ce56e15f41c99a2a005acc7f78b735e8330dba4db4cc96c524b4638010937ac;
 0x2b33ef11fc26750d1497df0fa1b969f1c01c5556522150ff976912649af06a99;
 0x47e2b54830ccb7ac893e39afe89b1d7eac35c7ec0f28b343e0249b924f15d37;
 0x2e820332c7266af2a59ddcb5206d404827e9563ca2c5dde5d2d34be269c82612;
 0x28fc123f79ace39838b7af8f86be8cbf89a3540015bed059fb7a55868edee623;
 0x121ae712c922e7ef55ebb73809f3036db42852c52fa63bff322237bd883dd555;
 0x3002f25a7ef8e035c0e82597953a107fc73a5a406770dd47ca93a34cdf8040a7;
 0x23ea2cf159ca1b8a17ca61b73bc84b33ca7204c4120cec087424470dd062076e;
 0x179e72146176bd15051df789ddc3d0f48437c973232846e4223daf05529248fe;
 0x25edc52b2cd7bb6690692d75c3f1b999f2ae0749c5d2741d2b53284b5655d46d;
 0x1cdbea76c865750ceb85ec17f20c955f2edd46df09f0ad90d04cf416b10fcaae;
 0x2edd29ae05591244e1124edc195033a404aa98a863678d3769ddb5797a2a748d;
 0x2d9d2a342475cc1662da5b26453efb92f1549efbac72a1226373414a49a13590;
 0x4783348904bbd884be3c608fa349287d2e4d4284baaac9b6ffed192a641406e;
 0x1588ed490b8448cfb883d790bb0f97a2f1962d14289c946b8ee49a4ddcf7a3eb;
 0xbf107dfc33fc7e66153c7e5d6beedd252d17b8ca1bf1f6499a9dafea570fb07;
 0x201d0f15aef01a1e0b401f946f7b29e6f01147b6257d7ee235c6d319c4474326;
 0x1015804003503668b1dbf9bbc98eea304dcdeea4eb7dafc67b41a6446af10385;
 0xb1e797eee3f15b88ce3a1fafec88da1d6329ac3c34712db570de886cf569098;
 0xbee3e128dae75005ceb095d9e6e0e55285ff7edd96dc89654f5b83570593503;
 0x1853cf3ebd47b13b2f218990eb3ea26379c1d213e70feea5b84882d76241ceae;
 0x2c25e50d363cc08774bee7d9e6232855f6d8977ab169e38fc6fc76de9a63e6f;
 0x21ccc1e8f8b5ad39b401f79c51ed881ec892d2a7eebb8ffbd848ef158afcaf68;
 0x2193aa94ecd57e962604ab428aa0a8971644707c6e85663ef9b3720a685d71b0;
 0x1d3b5cd3133a0533eb15cd908cbbb5dce76ecf5b711f2535e852aa472ee4c9d1;
 0x11f29d358de76ef38d31d6d7247b64d41c42ebddc7ef5e4445c7897f57ad08b3;
 0xfcc2984d1d2b762d6fa16a3a407f4d3eec484a9129763864265add7c900836d;
 0x2f79d03e732317585ff9abb62a371800553f1eb717a71437e225b204c18f9e9b;
 0x2f4f14eee6382dd0c54d10739b354abf104cf134babadf2dff9b8cf286f9733;
 0xd0c5aa4bc4f774d03ef5b2f9619f618edd9afb37defcc420b0aa4f4fd145e85;
 0x9b150f8dc9342c87a8b7e871345e5998c084662c897899df45d73157c4fd0f0;
 0x28148860436280cd8a5fd6645fd1eb86abdb72dbcb02e8ef47065a4a681e9eb9;
 0x2cf619fe3735ed9bccedfbdf3de64031cd203231a0e178417bbcdeaf69c85d15;
 0x32f164c4f4e5122d438a9e0309459141505621343ab1c19abb63ce7c036ad03;
 0x2a3efdef552208ce3441637e2cd610386f41f402bec452d674bd2fe16c273581;
 0x1a9e7a13e4d57cd1ab3e38f0991fcaa4cac542f66fc2a46f9cf7d20029cac792;
 0x20871908a0ec043e1e43ee1f520584f15b3a7f24a2d03aa1de50e27ca599d872;
 0xb1e797eee3f15b88ce3a1fafec88da1d6329ac3c34712db570de886cf569098;
 0x4767ef42341d3930d7e5219fabbff62f44e103b3a0905cffaea5a2dee73c19;
 0xc4a1786e515cd9bcab2b7c9723c597e730c532555003cae4e36131a721f6ff9;
 0x147f468c58deafdcf47e57114df0ead2c77452a45020e73955cb150e10153520;
 0x1d1309f96110c70d9ef884374676b9cc3a599fde74388ef68d99e54b5802c760;
 0x134281c387edde8b6f807d253bc0ace7a625fb3c1f65b88e4537febff52e1d62;
 0x2fec2d972ac4b8ba14bbc95cee2ac6cb8c669abc35e77ae2f7dc962dccdad59b;
 0x1782c9e451cbde261da8b4ad3a15e23ef7f4daf7b406732de05570c73040c663;
 0x261bf6a9f68e313088d8b2016d3e7763a6f6eecd9b506fd2baa8d8f3593b4c4b;
 0x133315cca34af406eae080edf7ce27574fb984710e4e8ec39aeb6491b97f98b7;
 0x216763174ddb0395182ebe57e4feb91be8f13746e89949557e023df397cb679b;
 0x9dbb42bf26459d3f9ba2ed5f491b4f01fff6222c6bddb7776450edb6c652ce5;
 0xea832a969ad1d94f55cb34f35c7327f62f24fa140817b238bc676edf1f77b6c;
 0xda7dc395978e8ee00ea5ba5103a39930e284533b1a51fbcd3d7daa542142dda;
 0x183cf55053b7981ac506fe1c56fee73fe3a39ae042171e21541b2b7312618722;
 0x16eabfa4236b9b61ba1b336ce55febf1cc84343f0449a54873cccfce0ff9389e;
 0x2b62c1083fbc23f58fd694646499bcb90368a2e63794b1d39dbaa36bf782e363;
 0x11ecdbc47a72138aafe44263356d01e931541ad49ac28c048428ecd233fe3c6d;
 0xeb0e1c7cae7c3f491cff7216ddce50aeb98935e405316c6daff1c21046af99f;
 0xb1e797eee3f15b88ce3a1fafec88da1d6329ac3c34712db570de886cf569098;
 0x2323c898ca30f7e8fce9b31d21283d3545705a71d0ce9577c5012fde6caaa11f;
 0x2373f9b1c4df6c500768ddb13eedecf0a82bda6029c0abf90f3f15f2e7a9f87a;
 0x2b4a1e59a52b1b825f6f8dca5ef66b929032dab32a9d3a58ebb44887f84c18ca;
 0x3034ae984f1538e2163148617760f62569231a619a0e2b620d206211b232ef29;
 0xf1fb16f83c8ddd6959d01a9576a8d70c226a1a422ffae89ee0baeeb37e9a8be;
 0x58d583dcf975f97dbf31e32ebfb0841298f765476b2e4833260ad9bb82f2f2d;
 0x2b1060a96e8a6de59e2deac81b17d40ecaaa4087276b7d5a9ac2b47598c2facb;
 0x70579f1869154a6efcb59f85b43b90affe755efd5d4e62686aff46646e0808f;
 0x21444d26f9de3b9fd22efea95d62f5193c3eb0b2e1a6b393e85996439aa43992;
 0x138671f92f9ed9a8131ff4c7da6806dbc33f6c02cfd3d946aa92288df2ff9d9a;
 0x1e629d7b8f61fa02a5fb2fb163a5a57a593b158df70413fe868b338307a449d6;
 0x10f0f884186e996c19ce4939bf317b3d12cd24bb87bba0d3bb763ab716ed41b;
 0xe2f06ba65a2c7c8500850ba6a489879252d0db2af69dd23fa3ed106c92739c1;
 0x19823b0af9feb33ea07566495f0de05e7ebfa52aa89f5a5d7c66f96ad60c828e;
 0x16b0527fc6aac4b4485dded0afd8905e6b53e056efd33df7b8fc2d3d4b54cd;
 0x8a584f510af49572ee86cf723346066002e5e7621e502e946f8f35003b793fc;
 0x8a63466c0bbbdfe79375f181ed0266c97e6057653d0b285696a5ef3e93c27c7;
 0x28ae69c874a3ab1ee6360bb1ff560fbab69591e837a4bc4d80ffb4d253e232c5;
 0xb1e797eee3f15b88ce3a1fafec88da1d6329ac3c34712db570de886cf569098;
 0x26751aa290792a4fb3921d9ff8b5967efdf68b1fd85981b4d96401bc621b381;
 0x1cb215d90f4015cc5934293e248b2d6aca4e0afd46cca219a89eb4f676199481;
 0xb8f12cbe7152d6f3e5fbbe978884a5b7be6f35fda4c00f5c5975158df2f338e;
 0x17d6d8fe5ede1ba531918c33df5c6c9efefbc20304b2fbee19c01aef81299774;
 0xb53ad598a4e14448fd044b8ce15b6336af6b91cfb81c0da827e7dd68e98e59d;
 0x15e20ee8fc573330fa52fd42ec7b636e28cede5437be371b1990898751adeb74;
 0x154fa8d9c7f09c1ffc7fdfcb58fe7b91e6d81b03adfb8f9e2fe0522f6f7c2541;
 0xc17e59b4750d7443f8030f26ebd82d25623e2b8e5540cba1f310828e5e66988;
 0x7dfbe56e6ae749917b93471525255853fba26222d45e0504d8f74784b1a86f3;
 0xae4cd50975a86aff25632e8c9b7c0e915bc38159c90dfd9459e29ea9432e467;
 0x1fd9cc61b67d700ec892a8c09af677c9e28097463010126823cb72d07583754c;
 0x1bb36856ba8992334e795626486a4608c5d9a076cd93c8aa0e1a934ae4e8f3b4;
 0x2f9cce5050f66f493cc95213db4336536a3a0e2a17311cecc27cfd9d88e339d8;
 0x14839ed69feeab49ef110556d96b4f1793f8c95f3a38de800e9ca0df690f958f;
 0x7b5c5afb6a826ccf1b740cfc8aa6f0279ab50c3de8a98f6692bff8cedbe5f0e;
 0x142f7788b72c5fd5a9065ebef59f6e8d32eed74588cfc22ad0962aeb24a7bd0e;
 0x1d07d62eeb6dabe9df4fa00ad642bfa7d36687d6ca9c8f023a40b5d04bc78ae8;
 0x13e55cabc0bfbb9ed41bf205be0674e8668a8908c411ae821d2539d8cc587fca;
 0xb1e797eee3f15b88ce3a1fafec88da1d6329ac3c34712db570de886cf569098;
 0x262b44719763ef2a486e59231d9624bcf1ecb95f576bde1e7088dd5a7e4a5f89;
 0x2dfde9e5ea549d50c4497d25b4a4cecd096226253b3c7c3874057fa62b8743e2;
 0x21a567f428d745b4cfdda7100163871a5383e5d8ebbda66f7a305a4c6be0abdd;
 0x1dda63eedb6364b5da1fd1acc28b6a57b9a4033ee7749a8c2ac152a1e94d4b4f;
 0x685e2a27b7ec3fdbcbe3e017953374976ff85371aea9109c2d76f0ae1ceecd7;
 0xbadd4c6541613422a3c2b71626af0df7f380d6f3f6da676b7e6dda463f63ffc;
 0xe270311e05a64fe34fab3018b68616f08a2bf4c06a47ca457defa4c199fb96c;
 0x20782abf7216f6c5e781a8f0350099551c5e9a1a3d4b3ed2d985e5a7f566b24d;
 0x2b1a699f26b1fc4beb031df4f37b8d5cbabf780572fdc64a56de00748a65c07;
 0x791e4fd31ebc85df2e06aae29edd808f129493f8583732492fbd7056e93dee5;
 0x2cda35be891732bed62392cddd00557b6f4b195e000c1bd4fcfb605f8e369d64;
 0x6b17710849d27210afb3ecca7e7c7ad3bfa36075ddf1b46d7bf0a557c7afba4;
 0x2a1ad86529da724870dbf3bd6fc20cccc1998102cf0d7007a6b2263999e4fcd2;
 0x2ca7a691f176d709c8799b5094d28a68db601ffb5d133cdfcbfae9e565f1ed84;
 0x92ee47cd58d3038bf80c70d798516c0dc371ee7fc7715da95ccdd5a1e820347;
 0x2f0a3f3ab9033e8640e9c1b7112b31242b7eb493837b84bbdc9cf56ce5858752;
 0x2bafa447b4f5b878e812ea7b2467c72890c119992bd1f6e3ca60f926e812d2c6;
 0x6f980dec5d6b3665f1cf9fea725ecdad874c5c9cb63e7987fb41e7430a3e352;
 0xb1e797eee3f15b88ce3a1fafec88da1d6329ac3c34712db570de886cf569098;
 0x2d69490ba2ee43e841922e9a426a5bbc264f17ed379f8bc91ae3d275e724c21a;
 0x55c6b789c7c9586e4c88fbf4eb60783cdf8e9e58d356bba1ef92f8ec3514aac;
 0x160f356a6a05a6919dc7d2e03878c6eb552a14995edcab05f623273c0cd29a1c;
 0x2a178e1d8e4e4609710499245dc91e66f3795b5c0227a2ba8cc8a9f8830aa212;
 0x2dff2498b5124e3bc2587f3b1cfef4dbc1168c2172dc43f1d801cb75c7e18ff7;
 0x3062dff835ea1ef8f6960d05f57368fb48357ece82fd7ef12cb5254a55e3d102;
 0x7f83dab6ad44900a3be2e049bac44fc5eafddc0e261ed5d1795fd513f12722;
 0x1a037c2eb85f1dd82bc9988c67646efed697444ea2739b6800d214e8fc52c8d5;
 0x17cc92ab3464a089e4f7747fcbee5043b59bf9d7cb744346cc2d889051463061;
 0x36ec634c1127401f9a2206720e26e7198702b85deb2314a37c1f06217cfad7;
 0x13e7e74a49ed94c2a714a46b12c19e3ed6793364b22763ae2c28b53318669510;
 0x304fecd133011329f98954047995691c6991eaeba7141494506fc3876cf8268b;
 0x4e860ca205e4d78f0d93d3b743e2d82d77737faaf2704e5540e163aefe75b51;
 0x128cd6494ecba913473703b110fbd66d627440384a6187aca8088de1d51aaa60;
 0x2c7111b9259f4fca63e218ad354e9107e80a436a3e82d62f180c0ff1c7055743;
 0xb3901ec96ea864778a698866a852170eac53ec5c05c024373cb38585977fcca;
 0x9aa27e7fd140dff6a20f7696c85702c3f60ae58e60233012be3996d839f8d6e;
 0x1e3d51555af4c3321630aa1d1134ff631ce25a12b77d3c2f3068a4a981f79491;
 0xb1e797eee3f15b88ce3a1fafec88da1d6329ac3c34712db570de886cf569098;
 0x19b9a37490c9b0507423635e95f10a0f27a2dd48b840393432eb41c3fb9aa265;
 0x7783facafa95b276e52a4e6957b6145806c64f5c0305fac11c14095e6770e7b;
 0x1dd174936ad30ba73ea372209ca23d51868b21e533cbd15ffd438c51c9515c89;
 0x1fa6bdba3839fafe0ef67bb8f50f2bfcca95ff34ccdd072bcf4451e1b3a8f098;
 0x2a3116f7f050869bd4b0181245fb41613f482cf81d09b95898f9f813caf7c97f;
 0x2c16907e9d82fe0a3799dd07efc106bf60d114def959261470623220d9d9224c;
 0x3c373a0664f0389702f966c124355796a3819e6fcbf29583b4a33891961bff7;
 0x2e67195c545bf86e5737e4d28dbf075c11cd21965127da4aeac13b49fbadc2de;
 0xe0d816cd83dfd0535a9706aa8d7225342cd76b82d2c3df0425857d92aec38f6;
 0x1d623c057cceaf69f4438d54e954e59f7f04065ab72132da788b28fe08ae403;
 0xd7f30107ef57c75975e5a489dd2e39053d12cf5ff9f74bad3e647d6b4278659;
 0x32f7466d62e6c9dd8c02064ac112042b9082c7ea2e8caa266d04a68f9d9b15b;
 0x2a4bc62d27e720a9e53c02e6519ecdc684ed42222c063c698a9fa024c1bd0669;
 0x2f11dad1623f57beb48f1f781bdd9cf57752dab6fa75b6442db3834cebf6d5ae;
 0x7448b576267dd9d742ff7a7fc8324ddf3f340df575917d1583256b8a26c001e;
 0x10c06e0e81bba5139387282c3883c5967d1ebad7ed164f970dd697de036db5c4;
 0x30c7e1595a11101143f8997b7b9f63d265bb69efb4afffe36eb47ac4e170960;
 0x2081add9a69f880110449f883df1816b141c11bc52fee4c355821501e3fcf05d;
 0xb1e797eee3f15b88ce3a1fafec88da1d6329ac3c34712db570de886cf569098;
 0x288949d7c29bca2b52de67a970192cd195390c7ed0788f81d85db64c98c78aab;
 0x2589eefe89ee66a650a27700d7ad9ee3ced14f507536405c21a90857b6a3c8e8;
 0x28ff008aa0b3a7732cd4059620a76a9d1cf8286a5ef84ee4df54b435656f14da;
 0x2155df46713041cde67a10d82c7c13921f0e394bc66eb78f9047782cd17ea643;
 0x2c16fb8505a4a94a7b5c775792cabfa62e014b33a5479a81c2fc8a52e8044d36;
 0x2b1e314362badfaf84b4d272a4b6509698305104e27fd317fbbd0178137cc708;
 0x2c27c6d894ba49e73659ae668667796a1547338cdcf3c35914b3d3e004f935c1;
 0x24c4d70a62d779e831a38a510142c88b2071251f2737dbda104dc3cd5585041d;
 0x172cd6c4cfcaa0085db59ffa6051971fefa9934458a50b5e3b98bef6053f7fa9;
 0x1068776f66d6f04edcdfc6e6cb9473ee2f57d670941e4a191f6f69e7bca61a;
 0xb5fbd532099ded25d17a8ba4db930a0c9655056fa6a01c56e825843d763790a;
 0x20d62b8df28b9d5677bd4f3ac8095772befee8b2b761f9a4a7d9b9aa719209ac;
 0xab9f332e0d0c4ddb998fcd6da668a8f744260e3ea8947b6f6189ca82c5db01;
 0x2953639aa84c6c0feedbc71e3af4e4a15bc408f5cf3ba2bcb98ba5bc01c9875a;
 0x1afc3b62187190e90184c6f1f1878020f0efcfa38235f5980ec372c2d9b4a56d;
 0x2c67d12ebccd059b365736302f01da9088f2a40ae49d88e58c7ecab80621db4;
 0x23a3292e40578b5fe32b0c7ca158b298fc7d6397ca3d46a50157a528a6ada69a;
 0x2d5a92ce3878d73e89d645f35ea2b179fadea64310ff752a48a94aab957cda66;
 0xb1e797eee3f15b88ce3a1fafec88da1d6329ac3c34712db570de886cf569098;
 0xfb3cf3d82f7442edce7ae58c2fcbde983a9991bfa8c583cc9e8675176f5f500;
 0x1441b92ceeaf3e93bb74d84875b7b32f66218d23cc25b747d522344c853e69ce;
 0xc66500308b0fbfef99d8dda3ee219ee7faeeb6ac7c993572c13a93b172c09a4;
 0x104281140d7c64b5bd415c250830aec689e5868c58a2396c8f4af87c06c0a617;
 0x297d4462db9786475248b39bcdc40ba0ec662e5e772f6d07c3178964c86bb6b0;
 0x882cd69f5f1b0c14f1a5f1473f44952e042d81134a25c45a01e4d997761b6be;
 0xa663c1280a5f4d285524e6163aef8f83a42ac4a8fd6d3c44bf01c5f76393e75;
 0x64ff7dc46adfef44b40646c79afa99d0c14ca6bdbf7da5aa322f346f169bf41;
 0x901c9594190b84ee79b7282a6a5bf82cda6d28d1c513fcc679b42c5da8570fe;
 0x21257b75cdd1fac9c5a38abc15274df2aa318adfad33a5263ea3cdb1a1990577;
 0x255cf0a823fa7cbf9cde67161df7378969730138f3bab39b5be3575dd62e8b51;
 0x1d4b1fbaba2e064f59db8d8a6e72ab84d49a8d82f6a2f9fd532caac3530bbdb7;
 0x3e5ecf7a394eb453de6cfd3fe8da36f826abe096b15add7bc22ada6d2ec83ad;
 0x1f068ef1dd48f8934037a95c94b3740ab3d399a0e36cdf8c91adb39ed90c5151;
 0x13b5b483529badcd3ea50b491b6a042ffe9c38f2761e8367eac4e11a85210971;
 0x28955844381caa81ec9032541abdf3f00b77b9a80b9f6e363cf4369e0b1b6642;
 0x2a3fe34d0e5e72044a5af113255b129d78fdd2fccc280f3d6b81c985d16cd288;
 0x8757825685a90d9476b5bcf376eec9556c41811a9c017fcd7d6ac44fbbb8a0f;
 0xb1e797eee3f15b88ce3a1fafec88da1d6329ac3c34712db570de886cf569098;
 0x5454d37baa3a2f999a53fb59504aabfee05108628378a3a9feb587663d274a4;
 0x129a7b8af836412572e06774394c69bdae4033b15dcc2a4efc10d5b4d850fb05;
 0xcbbe121aa60c9979b941f94e86121f984e67334708eb05850777184734a08bc;
 0x1925ac7783c308bb5aa53769d434c44de6faeda6015848693c50fdfc7f465d86;
 0x1e24206b35f67393f1d61933aede02c01ecbd9cd12929e48300e37e1def7b1f5;
 0x4276737b519ede14db1b652fc56169408d4cc1abf043d8a9ce90a16447a06fd;
 0x27b946d91e4453a4854c29cd248e0cda329d67a2ea66450d51b57f8b159df5fd;
 0x2cdec054ad08c8c5e31588959e605ab5b0518517fd809d437edc27f33da7580b;
 0x26e434190d53125fc7718bfae9f34f2124d41bb51bb2c23c37deea8407da3523;
 0x519d0e4b6c1228368f420926c69ff37ee7dcf8e3dc45c4e95c821477d075eda;
 0x2aae1f5ea6015e4acf22f950f6620cf74e7d7bb7a33ec09b372cfe562e5f2e12;
 0x2ffb9c618799bbf03e071bca26d130a936a380f74f6e475f567adfd9adc269ab;
 0x22a6091317f474f780d2c4e11d78e6eb875686f797f82a8ba7b3212879dd63ea;
 0x79b093f80d89162556a653dbe714975928ba10cfd5f1d0bd47c0fea68f03493;
 0x2741b4234834eca3dfd3ad4a3064246c4496defd8197e450b8416e4852028c44;
 0x15adc0ef2ac09ba1689bc3bf21e4fa50141c0089d00a80225f39a8ee63ef0032;
 0x168017fe19343b5d7d8476c0936a0870ac87beb8ef2ef9b02cb773dad72d2401;
 0x2dc5d64afabdf089bffe3152fa2b290726cbbb4d52e3e08ab52b1876070a8b03;
 0xb1e797eee3f15b88ce3a1fafec88da1d6329ac3c34712db570de886cf569098;
 0x2631312e2a6d973442d5dd7efea28e5073c5cc17c878cc594e2c39dea7a51950;
 0x1ae2f96df9a1a71be2965eb1f504ffe75742ff7f81a45df9086822ea4ff83f9a;
 0x17a4bb48a247c563499f4b71a2ed4763c579ba38009184f3607d9b4b5b2594c5;
 0xc9a0ebe3610863f0da6992f19a565911e14e72687f798d90b98f2c2b24bda63;
 0x2f2731211090929d349ecff21490ef33747d4a402c8c1995b827292ad299201a;
 0x9b7a78ed8d062af7d0ef55e464376fa6a4ef0de0e0cfddb6095156359825480;
 0x28abb1d3e1bfd68df633d19408b66ec34a580540eb92794fbaa033f8eb0e01b3;
 0x1e2014bbd5d2db2f97744448f2d57d1e27b6dfde486085a5d8c128058fa0e656;
 0x25f9ef11d4ff48535b9301a31a5413236fbb50568745d44af96d5d307490eb62;
 0x241b430c52d322bb0971e127e4e68fd3fad0a845f235b3e80bb514a00b75ebd2;
 0x21b6603896d2fd23cfa9b8db8fd0e550decf29eec015b5cfd665313d91014bdf;
 0x2066a222ed385ff7d9620fdd0343bc67d3fe9027c450917deb4c126ab9c5843b;
 0x148ab2277866b9d0c72eab8df30a3abb6fab1610e164a9f2400ea397e0de92a7;
 0x22b514cdab8e05d5b1289978bff23e2aa763565fe504c7e3bbc86069e0352239;
 0x15adb32fd53195fce581f92dad1925b14c6273d02a73ce8a21e988944645e829;
 0x26514ed0266951c35ca0ef8ce1de46874ec132fffec62807e01831664eb427cd;
 0x24a1401fffe3c86451355add7ffe24db5672d8656cf51377c38351f1fef09a6f;
 0x53da14e5e7a25894a0b0efdb05617d4f0922398022d656b13d24ac31c66838;
 0xb1e797eee3f15b88ce3a1fafec88da1d6329ac3c34712db570de886cf569098;
 0x23d4d5f42b19c73015c0c481446416d929469dfa05ec46df0163b835b30d08d0;
 0xc34142c7d90f966770924de9bd02290f2a25d7e627ec80bb3d7ba339d0e8829;
 0x15693ac825018e52a0d4c3aef740c97437e4dc3331d552a1c8e4b8a3c9e176f4;
 0xc1d7701d2b195781d2ec69c9c91b532a326163ec4fa2f0dc4afcc58540acd57;
 0x29f55706b8105e02770e12158f34ebf47fa7ef35f2ca62de699524be584a17ea;
 0x15948078ad1c9f08c03facc3daebcba846a02cd92994d709ae047be01ae1c676;
 0x1fff985fd1db0e045d0ac983e602592bdaadc7ee35c696f55da0bcad75e20a1a;
 0x16b370312e2012c15fa0c6b9619f0ce24ff0586c10b4bd02589d2b7b2dae4eff;
 0x2358120a60a01628aebf65fc72181ff9a0ecbee9ae148ebb4ab4bdc9b216e76;
 0x2f1a1712d5a7eeef8647c7a32c2c9491c10ec872fb7a8280bd5f360a3411cfc7;
 0x23b8d022a8e866d4095cac47c7ba7111429f6c08950a19de476ba2fd836b6cf1;
 0x139ad96c1432a53b6fee35ecd66f2b9da8ce4bea3ebdfbd2c4a75961efe0d892;
 0xd1a3762903cf32fffb016810eb11daccbff2d7dbd6b2a447ad32f810d88893;
 0x1e2fcaecfaaa32924f964b021dd552cac420f822a0a71e37c28654221d472b7f;
 0x12102994668f97d887812f0151144111aeb19e748eb198c3a75a9965176f8f07;
 0x2cb68b7e634347542711e393d188b6fc2eb0f6aab7a7cc9177543b3ec6d7d;
 0x215a89522290e4cbc142deb1584f336ad401aa76d058da586baedadb4c0b7b9d;
 0x508c70de806cb78a62250db957fe5ed69e4c335b86635be74a068f200768a;
 0xb1e797eee3f15b88ce3a1fafec88da1d6329ac3c34712db570de886cf569098;
 0x3f5d10d3e2dfdcaaaf5d2251baa6e7deef7fe6016e0e33f67413b576e78439e;
 0x5160b38288f77fe866c353e3fc4bdfaf39b54fb22c0361c6bdaa645131dcd32;
 0x1a1f53585e77207de93ff07741144e90b6f8858f6c68d52b62c96efe319aae23;
 0x2c48ab25015e0bdd2cebd18df7edf7766a28d757827818c284f15302df3d0285;
 0x3001d8c6b2c0a9c4e7f80cb2688f909dbb1bce96b7abb884f405158aca90ad9c;
 0x14ba759b81b8115d220b3bb5e077e597f805e30d961d02b132ed6d6dde416d8d;
 0x2e3b3d96803a71c846f5654d3bc43f69edd66885224a46f6c5b67967cd9b0476;
 0x1515804d3972a797545bfd5143cd3d3c2b85b18b734fbfa60e28a7d8024cb8ca;
 0x2122b140a17e84a1ce854a0f924abbb7941eeb8af8831dedee228e4ed462e38;
 0x1efeffb998ae5510b386fe1687a04b18411e23f5300e26b0dae71a1da6a16ef5;
 0xaebe0890cab1a8d389ad98ac4e56b74e1176dde08cd90b0b69037167d221c07;
 0x1392810e135502a38d126a0dbc2cf8d1977357dbefa4d84484d36a4a6e4c7799;
 0xafe48f0248af7d2f35057667e79a08c2c2bffd8225b6219d94e785c41a796e9;
 0x198eb323d5b100e891e9327f661d15848df9f2e3bc2e34692b0c644ff091b62c;
 0x29c62456a430517fcaecf1a752a55dbf245a88ccd664e1c824da61000919c45e;
 0x2817a686e5a15a89212dfdcf69fd15fa73b8bf0a5c5cd893372a7deb18d1a7f7;
 0x12d401440bb03153830e9adb349d891ae4fd80cbbe414250d9f3c2d71448d93e;
 0xfa1b160c62129071551cfdc0d384b81866bda034159475cd5107b92044b8157;
 0xb1e797eee3f15b88ce3a1fafec88da1d6329ac3c34712db570de886cf569098;
 0x3046d1d934cca5a2f7039907e78cd8dcdbb50c5e8cab13a78dafcef27ba5597;
 0x2d724a2ce967f1115a32a74ee7cf63760165fc405621008476db3bb65b346b47;
 0x6684ffbc3e9a720f7ac9be9c867f2532240fc9ed20c21430e2685abbae63ca0;
 0x1e4caa2fe0f585e91bf011c1755396d39dcbc30e94aa4ae3ceefd381fefc0d43;
 0x24a9509908f6b0a4aedc444647d1de173078d900d23e2770b410624472bcfe70;
 0xa444eb331e3a9d4f98039f6d9a7a45482ad85d6e9d0917486bae82a5047f729;
 0xcaac550d739a7699d5dabeabd3bdb5e37449e87f07b95ccb82fa742471b8ef4;
 0x4e0c67a911f80f93720ce27d4ce2815f7c4f2e5d234c259fecbf562f863121e;
 0x1ff8f4767dae471c0c2a4c2ef44275aaf07e1e155989a5ccf1e10537f860f72d;
 0x2f6863db06c9adeedb84708e3b7c091cf44b4251023fe8f6bef72d61519e7651;
 0x2e788ebb5af871b9ed5e9fab07da7b58126109807e5915e6f54d7cf7dc79199f;
 0x2cdafe599e42909bc0475abddf4f10a4f14df5a2c0f429bef913ced315d116f6;
 0x1b0a72225d8796640b16fec15a58e11d4be5a9a473d1337fbb495ad93b432f6c;
 0x1cb387a29a3345bbf6cc407a81958e61fe98f7708f40bb8b96741f730c7e7081;
 0x15ef88ba22652780eb14b3ab276c1dea798361f7631344cac3e771a16910179f;
 0x26893d124895c43a1a271e72a5f99c4fa9fce6ffa7bf6c31e4926a4efb888e67;
 0x9dc58192b21af8f6033bd84e9f5d696c602e0bb4c924f790b27df7db675049a;
 0x1d659f67ea472288e942baa853889e47435056a2da4398acb9ca288c2404c7f8;
 0xb1e797eee3f15b88ce3a1fafec88da1d6329ac3c34712db570de886cf569098;
 0x17812ce47ed47b09cf9fed086e7764010e70afef63a806d9890a0c3113fdd15d;
 0x5bc448e17449644d41ef38b762a183d1f9c0bd6f6008b4c902ca3fda45d9e4b;
 0xb8f14bac67ece8b1f9a960f436bfc6a75ae541945689bf78b89e2d768d1b1c;
 0x6e843ac5711fe5e7551ae25506875ba9eefc93563d15e03f15bb5d6e307b294;
 0x37c5948a6f6dcdd4378f4e6220a96e4fc27c8fdb102c6f2fe0988b199ad2860;
 0x9bb55e5908b10cca78ddac3e7a880cf469fc418c8b0ec0e2f96220fcddd983f;
 0x549938eec4ef16ad9d89081f27be2a2c4af49ae918988ae5574965b506f0126;
 0x13b4215b89af0652d5598eb29b34ca980cb1a1eb44eaff0e83ed8b6ef5c5cb73;
 0x2d8f43577fb26728a6f2305e2f868a4298ac5f4bebf8419f072cf709b9bf6979;
 0x58782a9e8860cb1b60314d2b18e437f36c169b5362e07575aca80c3bbcf8242;
 0xf6ed9ca8c19eab0c5100e7dff2a1e4d09b3c2ec9e19a9aabddfa4de4903cbde;
 0x11c3ba734cc607cfaabc73f220cc21f2422ab5e31d04818137793092015a1150;
 0x1ecbe5795e0f92f55c9784d7687271c7f1d99474a4c9f66fa41618d17342666a;
 0x2ed6fa55a83b01452c9e30b9888dea9544c10db14356cace8dcddcdb0a2fd223;
 0x79287ad9db6ce54e8902962f53403735a76fb7eaf2fb92e8fc7e6cec890885b;
 0x2e26aa5ce56c08151e6c8457e0ca280a1cd8117e7b4fe6895058b964859d73a4;
 0xa889a87584a87178ad4b8ee2230ebc06301c08cf8407e631e71d6467079ac3a;
 0x9c2891001f2a119d1126659c30f6123f65be071bf93729d2a76d9bdd41798ce;
 0xb1e797eee3f15b88ce3a1fafec88da1d6329ac3c34712db570de886cf569098;
 0x51fce24183d75c4dd506c99b7be05f0d326a972645730c2a76babdd8c7992f8;
 0x1094ccf4dbff390c02df760b78ae8360348f9ceb187059aff7dcc1a3b5d9e8cb;
 0x2d4966667b830669b5fcd632c6f3cee90687341f51653aec9f0214ab5db4a847;
 0x1b6e79f0b003e313be5fc611155d4322d1c56f22957bd201a45b53854291012c;
 0xc9d7ef70784cc153f1a325031dbb8dbac58625dc7610fd453c17cf8dee3b489;
 0x2eaba31d2ad4b02948ea76ed4d931d5a42683adb9edeb564d065363190e766ea;
 0x3af6bf9c7eaedeabe073487509937cd73b00a8fa5aeeccd8d4a9b9ccca1666;
 0x24d4c2116faf69b99c84e389413f710cef10de5cd87c041669ca51c21f3b6318;
 0x1f5cabd4bd22948e2c5cd975f92fd0850731301e6291fce364d7f5d951157b0b;
 0x32aaadbc1decf6ecf33b074eb63f5fd75bcf94af261ed3b75e049d63dbc66ee;
 0x194830799464f8ee702d72e41ac3aca3c4ab419b02428605b00829948a201752;
 0x1a88bf75b55c097681b6c07feaecaea5a7e7a84c2d9b549381c51c9b0cb64532;
 0x2c7969063d1fc97a8d063049637ca6ba63a6cdd9200b95c1ff1c941c390b89e1;
 0x79a0abd9ba495c5859ff6e10ce393b50c9f04bd92a9261ec1ef7f99f77e46cd;
 0xaf8f7e9f3eac9e6e82bc956dd7c53bdf91272cc7ae955d734c8f9c6a4e7385f;
 0x1f45d6872234334442f08c99bce292c089d3f34f4763419d02ca14f24c4b1b8;
 0x3a4a9d99286b1752d6cb735b9cd0fa27d4f1b8f0a1521d18d1517f6148b677a;
 0x19484e61180700e93699ea2a7d64814841cf11535480dbde83f6936f5ab68fb1;
 0xb1e797eee3f15b88ce3a1fafec88da1d6329ac3c34712db570de886cf569098;
 0x68117f11b7f8d736af79ab2ae3328e576a95d12b637b944cdff9b5758499915;
 0x118a504d77cc49d22cf454a7cb3d9ae8049efe9447a78201468e90ce576da872;
 0x1e21ecd473c3deacf25a495ebb4301092012529381b52e0d1286fac898e3c370;
 0x2e38b65fab0ea1b8152773205f8d39e6b81976426d0d64cf48cbaee81818ee56;
 0x19414eb55e2b2717e2affe4f6a520a87977e938319b9b49d02db373469bf6ccb;
 0x1f04b3026adc9f2f0995631d4ee83ad3910fababe4e78dc8b211e9c72084ce4;
 0xc1cee5ac82b0ba4ac8578c934c415a0f2a50bc7521d2058853b0a59415f6f72;
 0x1a0b86be3ba0c37e5fcba4f8f33d0af3333cc3bfb74aa262d3d484cbd60fbfb9;
 0x277f4d465b4a3f950592907b651c5ada6dbad43f7ad0dfdbaa4b5c0edbec7e4;
 0x2cbc8485f96542fe22965a7bb768cfcf79f4cea845cd70eaac0f6c383f542fd5;
 0x13b306fd43acac725673d286fbabe249cba9a5194a6b2062953b75149f02cd19;
 0x19bb715b15ee11c3f973eea2656300c00d6d96576c3724b070f38a764cd58add;
 0x2579c1bbae48a8bf9c43de695574e7d4576c2c73358b18dd15a1673528fa4d21;
 0x29bb732726698d3e98745354beed55ada619a0d0e5b8d05cc29f0ce1bedf01bf;
 0x101b8a972da8e777f74c68fc481c37f0b999ef0df3c90b6505ab2a6527c95d77;
 0x28d282b4a80e8079287ad62249731647b36221be836c246e9176c6e243623602;
 0x30f5a91d4bd3a7a00ccfb936619a49c9cae07fdd02d5f7281ead5ec765a5c68;
 0x23aeb8d675cc85209a4f47d7ce9374c6dd1bdc34caedd947a05836f8f3880cb;
 0xb1e797eee3f15b88ce3a1fafec88da1d6329ac3c34712db570de886cf569098;
 0x13efe2b7fcf22b13dde356329022c10caf94d0a67e448020cdf70a2a1bac2de4;
 0x20116d8a08ef558a247c6f5f943a982d94b63e8a1580c81a049ae62db7550d8f;
 0x2d082ae4142d9cf00383067665261118fc20b41dd5e3844d95d283ee935fd9ce;
 0x103520a0cf36cd976f2243249d25d74bd11b4afad705051b28f5677e7726d5f7;
 0x1e820f7db38b24a06bbc3dfc78c47d040c9dff7d8ba0160b522c6313c107852e;
 0x275832ae1f1cd86102dd968a76e57d3df95b5c1cbb1ef28dd38fa2bef749dec;
 0xece66ec104a392cd7d1e5a11f16cac7899588ee5f523b93f779b80f56ee42a2;
 0x174586e5d012f172439b4d437e58dfd9c58e7d29ed659a7471f0b80151dece5c;
 0xcc17b4f871cb91bd63924098c54be2744a3131d8a9ad21b1a55069f005ba35d;
 0x24e6611ad441830b7fc88414d4902bfa9043e60933a6d1ba6e12d6795c3c1b37;
 0x9392f480df40275b9d639dd95f8a1e0a62fb3b162b41efdb5625c90155fd3a5;
 0x19fd18a6a69d2e9327fb48fccd6e0549395b2c9362af152d9d7e9901c68154ed;
 0x174bd47eb0d06dcc5f5121b04bc3c61e02a262ef3c77f11c548b8f2580e664ff;
 0x1be5877032c20df6d798e8bf265fe511739db9d9b1042b2a9843a261cb5a53c2;
 0x263fdff0aed026e3b8654e2711dce2aabdc81bf44695f0a6694ec29174392aa2;
 0x1f71c71eb6f683d7b8516f7de5b5f0ebbf0a581077fde56843c0dfaff80acad0;
 0x115b998963794a6c504dd65e1b7d99ff4ccfe24b04462b5788cce32861eeed61;
 0x17f43dba64c1eb81be96ed641cf7801b3a45c614ccb85daa14a8153d4e57e6da;
 0xb1e797eee3f15b88ce3a1fafec88da1d6329ac3c34712db570de886cf569098;
 0x1e1c19e05021208ac3fdfe2d3f116c8e72ddd60fb5530005656683f528bae627;
 0x2596fa2a97ea6905c598c64a25768fa5bde504ea3004705ada129f936ed946ea;
 0x429be063b1c6a85e848627ce4bdb658eb148f89887b08e4699f37e1c4d63888;
 0x2571cd3671bb7bd7b52cc19e2291572e4dd8f8d077e295a22907d15cec049643;
 0x23e2edfaf71fb3796d9f00bd618d48df5454e6edb91a509d173c431668c494c;
 0x1a9b4db70aa7cd04e33a10c5f4188b7b7546ddb4b4215611965194caec7d961c;
 0x115d0f27b177d1bac2960bb00feb3be427e4e0184f8f6324d0a06fb47ae2366;
 0x24158958a69587f1c15512552045620f1fe1569c9f3e3668ed06dffbf0a73686;
 0x1c6761dde78638d734eb9eb1a1b33a98cef7efa4255fc3662bae703182c01fb8;
 0x2750d8eade4dae97328c60a645fd3c8431d96ae7482a818b0ae3b4cc46b9bdc8;
 0x1fd32b82dcbeb8c048e9269c2e53002f6b7fad13aa737f386a6cdfc1e2c5a9e6;
 0x594fc59fe25d24b2545c6650795cee8ba30d2ae04dd07b5d676b089ddbefa9c;
 0xc84ab77e8af0ba2da61c55b53cf3534e766735740836aac2427587fbea5c8bd;
 0x53cb97662f38bb4b44b958d4ec02f8c25fcc795969bfb079e664b87cef93dff;
 0x1603ca0816ddaba4cef9853184cd3a94d6c881b73d2d6d893db88a48c3de3447;
 0x18ea8dd9a27ca4410a40bc8becd0b6d42338881ac4c31a3ba7caa40cd1b56131;
 0x1a527748bdf0057723c86acbe4909490d3e2415647a82f1461a42f3296bf4c07;
 0x14175f91c0ddb823543a0167ffab7bd8c50273090aead801da30b25f4550584a;
 0xb1e797eee3f15b88ce3a1fafec88da1d6329ac3c34712db570de886cf569098;
 0x25f932ba4af84ae43ba5291e604cf8ca5fd208fd16b78c38eabc57286298d557;
 0x25475d7d649f8bff2630d97844bdc0fe8df6efb89baec75e5ab9bdba2777d431;
 0x89f1655b69d28450d05c9dfc610305d46a77dcd50eaf28042ebc878caf30d5c;
 0x123980c7cf8538b96942135959a4af1708aba866cba105e1f5a382e9bb6aade4;
 0x78cc219ae73e2ecb4025d0e0d90cf09f82f948a63243ddc062872b1070b6b30;
 0xcda20a3684d79a2e18078fea3261650a2cca213f705b56eeba2949ca203b816;
 0x21b9c66d1190ff2ddb30db322ca2508d231f7aaf8f7f5f5b95bc1711a672ea6b;
 0x22016741afc2d1ee9549ce4b74318bef293bb2b2d6495d424cdf700060dc813;
 0xd722902b755cd16c7977247cb28068a616adeaa13c00b1e2ff628c892bdc6d4;
 0x217793a53d0ac28751e3fda8caff3f8003b084c474e2458cda30330e338e22c3;
 0x2d31e0c6e311f327b0e780f291a81e25aebd9660648b0ff51fe8851d29671cfd;
 0x216d14211de9aed77200602ed78caa665a310ee03fafb5b993ddbb5ae2230f83;
 0x2681c24a56759b77d5e0a7afd37d286ae3422745564fdc15d25e0dd158c9f4e4;
 0x1e3b6edad3fcbd9d991c34f5e4d838fb76c255542d27f82d58989912b5bc7dd2;
 0x2eefb7b5eb265aa610c4356f2282dd92a03744a1b8484dedb115321df7518c2f;
 0x5a848b35a8e270224242f52686cf785d9f11ec3bad27529c02f6448a432ec41;
 0x9ff782048c9d9aa8690ed707e82164ad320e1daf646a3b30421f03dcf772423;
 0x2b294de4467526f4914af8f9895903124f2a91249c23e8d012a04e3b6fefd504;
 0xb1e797eee3f15b88ce3a1fafec88da1d6329ac3c34712db570de886cf569098;
 0x27d44f13d66a77a645f895ff821ddcf8cced8c8af984dbb8cf82b84653a5db10;
 0xe50c72da36c1a968102edf30c6b810795d41ce41c49783028cd0830acc37c98;
 0x2341aeac831f989ac84a00d127c0809fbc0040495ad77e1d1f589cebe120904;
 0x2071faf6e96fb5cd4400b6c58eb4ff5e527bf7d9492180bc2f4534cd0ae0679f;
 0x14da2ed4e175cc095a8d68ac6e7f9e2d702e82b1791204921bc4806b157be02f;
 0xc6232c7e84ea35400bdc0f7b8d0cd211fb5186df1fe8e927bc51ce0247d13cd;
 0x1f65c4563e9f61ed7f7f2eb3fedcde581ad3b660c5079c16e7ddb053facc5396;
 0x144675f4c54bc33e1bd7aabe8685c740738cf1c7891c5c659b07c6281fc67a8d;
 0x14ece2c3c47e0435cbb019db4708ef6c904b4af975d729a0fcd75e65abf744ab;
 0x118f931e904fffde6ba4e22eb0429be857819f9fd64f1273253b3f152fa18b0e;
 0xbade4f966d523e4656c44854982d4546abfe2f5dec203a45cc463da1093ce09;
 0x1783c94f37d6d9057a1c2e78e0d0f78efeb161a14dc2107a21661829f135d226;
 0xdeaffffd0feb209c00793e5f800761b5419d8725f4c88286eab224160ec43f1;
 0x8746a72fb64c2cdc1ef14613cb535911394a29c802d4a6a94cfef844610c609;
 0x4882711fd9c5508fdd0a1ec5a2a0810b93a6cfce441a192047a827f58ddb2d3;
 0xf2b738d3eb3b803bca325347b7af954cc10492832479183808b3aea72435c2;
 0x2b5d5eba00e09e21bd9202d72e53306361608eddc951ac1f08a53dc3bc6e955c;
 0x16d96e78a6078437404b5bf21aacd5a43d23ddd5bc2172412ad36390b3ce4512;
 0xb1e797eee3f15b88ce3a1fafec88da1d6329ac3c34712db570de886cf569098;
 0x2f6fd52b25a9485df2878599be34808517d5eed6c1d83ce497e1a9ea8d1c3844;
 0x2f0dc0c61f11a53d419b3fb805fc2d476837c53c1c990c66fd1539ec9d2e4e44;
 0x1b004ab51f77388c427453263ea600792a6be597e6f736509c2dbe87d4a298b1;
 0xa690789ef915053a2ed12aa90a8621340337bcae525139c9e1ab973e1bf8881;
 0xc925171c7431dace3626b7e5036dfa622bc08747fe849d6a6ae5c831143d104;
 0x27e2a355bcdae99405fcd39ac25b9ffe773ae5b0ed9a87a9e470715fe2bc271;
 0xd44cd56f0210228281e116260bc8aabf64fa0701601e98781fbc6b14faea9ed;
 0x1ee8d9f2950080571a9605c7b454c3480e64876ad27891241b8f62d71d6ebfdc;
 0x13edf09ae8addbf851e00d79fe8b990277b431d72ce0d9b48b55e3095b483bfb;
 0x1d2c7f3a44dcbed040fe5f5dabd49064622c34af68c5b4afecf631fd998de93;
 0x17e04fb5f49c12a6a91bec113708d943cdc774e64c6ec431bdbda3a6c1c0f57a;
 0x21d9dbd68c54cdb2ea8beaf7de31afad1cd404c478c62e8f59653895909a18ba;
 0x276950c5f6c44bacaee68fd94f14a44a07a0033515b10a76203ab2b12bd60440;
 0x2ca5b12a8ff6ee0156650ef67333a07ff08b156454897b370734c4b98977c6d0;
 0x2379fe3fe77b505f5fad59cc93f5fed7624e99f5359c30d56efcd0915460668;
 0x10e790cb3f6be51c0b4fd7f6e29519bf9bec842ac6e0f6f5584d5cc1431b5c56;
 0x20a94567158dc5f7b21cb0358dfd6fcf75abdd806b150bb4ef55756701d568ec;
 0x191a6a82b77415d9a305c90b8189e93ad9d915a411a544d0fd090a157113d557;
 0xb1e797eee3f15b88ce3a1fafec88da1d6329ac3c34712db570de886cf569098;
 0x2ce2a89b4c51f97166c6adb43491a88c24a3276110055a0deac88f7e71f976b1;
 0xe85242efe6b78087e6f76495c7bef828bab7776b3b6f5b4ae77b9a3d854933;
 0x92654dcf9e69fc2da394139bafb0592b4cae24d00e34981bddcd4b089dd948a;
 0x152d35166a3e900ca89d58fbdbe99caf3bdb1f984deae8e02cf703dd55e78a6d;
 0x250159b61c5e545befaed62a349cd00e1fcd3ea588f29ead5deb675a0101d936;
 0x1e66442753c8d95188bb9f59bad17a6ab9018f052ce8e1de58790b59bc4cd7c7;
 0x1a91965586db156cc0d4fe08208ea762030e390bc498435d3a04d41b95e854cc;
 0x205d22ff80ffd23060ee1aeb5050c709a63a4eaba0847ff587171db7d9ef27f8;
 0xe92e1e54bc59e642a77b5333ddbb2e15594a1956a3ed0e2605dbfe4cd29dd9d;
 0xecb39d5fb42dc2dc2f2b74c13e24307a1f3be67f35ab79b0ac974eaf4a0c41;
 0x77aebae118635d5a0e0160df4961f3c5b796887d878ddcd2688fe1d618150ec;
 0x2d0db6e2eb4386d10a3719148038523ebc7baf66dc538818b0b5d843002e07bb;
 0x1dc7e3849dcf39a59aa7a87ef122afb09009aeeea37dbdef6e850e57ea37f604;
 0x97559815d3b62c28056095e39c8b1a8e366bb8aa42af85f673e45273d0ae1ee;
 0x7e08fce9a5121c2188a96e591b92b958da520778ac0bca67b59da2b3b06f0fa;
 0xe3d58fdb4543949957ea33bd03e3abbfb109a1691de6696419d4b1207f542c;
 0xc991fe43818ea306d3b776847d14f4019bca2070d200e07735c62da31a3138e;
 0xaec16bb8df541908f11df6a64c676183c76bfcaf7748c503d6099acbb3f2a9c;
 0xb1e797eee3f15b88ce3a1fafec88da1d6329ac3c34712db570de886cf569098;
 0x85b7265354e883298caeca1761cd19e2c5c2119b36c37d6f5d666ba8ecbf19f;
 0x10d7d5e67042939ab9d5eed4d520c3fe081f9ef97b3ea8f7ffec5d5e1889e031;
 0x1cfac1f08b7bc16a7482dede1d624a8637eff2c6f5b38e5fbeda6f6bc5cea6d8;
 0x6b10274305c15e9adb7f7fe7cdbb4071c1e4968e46e461c6642a861d0ee68fe;
 0x2cf401be1c32c95cde4ebfc65cbbea9c09f9632239b314f53acc63bf37d86a56;
 0x2fd0c9ebacd03258bfb689a7a700d43b1fec422b22299d73e478801d9533a36a;
 0x4ec21b44c21c6c358789f92b5d126597e1b60f05050975b924cd7042087e630;
 0x2d42130581a19be2488f98c4473e80511c275be79f5077db40b74b43881eb4db;
 0xdf73be8b64e045f882edee4f17e9da2c5f25b2859e904595844adcf3df8f7f3;
 0x1b05101b32ca2be2837624bd01f437abcd43cf6c4b561052e0e6df3d5f0ee39;
 0x8a4f42ecec6f626427ce116b20f3405898759d0531091a87936427a99d5c919;
 0x67eb4a3514d45d7e6468f85a7a606eb86395bef7b23018f25e133f7416cfe65;
 0x3037c22112964f6f3d8e4a607f1f35ee562d505e4a22fdf24b41e6c03e506785;
 0x23c4745c095e5970dac166326b875df52d94db0c9456b5afb55077d92996a8b6;
 0x12ca85b142f5d2d2d87b44b4f190810b0a2ef1cbb96ffb43fe4094ac0bb450f4;
 0x262501f3e02e6a5c95bfcf11749917b22125ff7d02ecdfdadfa374a45173c662;
 0x2c3ec00db9c8e44aaf94ea99dae52f7688c663f0b42d186fc1d030813a4ca1b4;
 0x120aa50356c54653eb5399b101bac1eeb8d728626800003f8858a183cc1320f5;
 0xb1e797eee3f15b88ce3a1fafec88da1d6329ac3c34712db570de886cf569098;
 0xb6c1dd3d2dadac79672ca69e272e4dede9b2bcbace5d12db15fd6c855bcc7f3;
 0x1dc5cfb71f9c9ff08886866b9270504c330bffed807e5f608839afd49bef8961;
 0x2ba9c16f49734f3bbf98296629f2a1a4e6d1b10063193206528ea39b11869cce;
 0x21c37ce612e1b0d5fcb0271e20f27c062dd81f2c8efabe92c73f54d87aeca299;
 0x29ca29c57a516f80006150ba546d332ace95854d3dbbb9ceb57a80f221f45b75;
 0x9644e84f727604d62f2d77c2d5c1897f8b90f362740a8c6eef25ed898e18ed2;
 0x18488a89e78505a807ffca282555f117bc71bfbbb9443d7d06e3060d9798728a;
 0x17f99a49abde27c74d8fe51bbc0a223591121cb9c0efdb32a6ef4bbbc976049;
 0x1106936fe4d91cad9dc00af8b85f8dfdca9298ac4207788a47c97ebd5adac9aa;
 0xb19213f24f13dd43d620c6d4fe77574e3ba66807d606f96055af06344a953cd;
 0x284fb79d4b5bdeb823b0a7e93566380739c2ddde6f2c1cb102f491389af88601;
 0x2bee8122aaeb513f5cd47546f15090cc6730e39d28df08a9ef4f0726dc69a1d4;
 0x109712b4385f9d1941bc8ed4cbee06fece38379f962681ff1f49f2c7577aaf01;
 0x1cee8dbc9e7c22eaa815aab454705b2c2b61ccf56bcc5181d8eb9acd08a4b708;
 0x123f9868d7ebd3d7c576a79f4bb3f0f6f8466aa50c642b2b8fb2938b2533acb6;
 0xc0fbb5f96f795f870d7a4affa961ab0a80a95f9814f2231debbe27352088c5a;
 0x3b268cc3e3aad22d4f8e5edbd7c5179e219201ba62987e3b4a5aa484a30c651;
 0x2e3ff582310fb1449330c0dfed129154d2f8aec3871d2d593b73926a70d8e5f1;
 0xb1e797eee3f15b88ce3a1fafec88da1d6329ac3c34712db570de886cf569098;
 0x18b0d069fd19a7ac7776eb39fd607c75bd860a3b2fa17f90f1c016881eba042f;
 0x12f75e7771d5d27c66ce2bf10cc3e3d6d542f3d39f1847e2fa726386ac83c28e;
 0x107b04155a7d9c1881def05be1797dbc8018beb8fadfc9935e569e2f2a2aa474;
 0x17318bbc96a3594382626c795cc986dd77a81a983bf0bcdc9aa59e6d71a59;
 0x132974c4fafdf621f1fadc45daef9bfe5a92a1b59d33056448a125ae2654d20b;
 0x258538ea87a962769068037de62fdd272eab79bfd68489fbbd478a7cb72e068d;
 0x2cb1201c76a7fa15f79b9ba6ea261d17e0b62c2643709e0f984c937c42115e2c;
 0x2e65cfe91bdd49c663d8749f335176abaf6377f582d48484f6748e24cc816647;
 0x2cd3d763fe99f1b6627e6352b95ab5489d191d0e5d41df07810fd7c52b9db26c;
 0x27bc4a5ea2a66172650286cbea4ff02ee1869e854ed4fcc270c8679a38cc8ef7;
 0x88ff579628efad419d54070c10f57b7e69348ae96ad0fd68b5daaf303ee96da;
 0x1cb43928e58efb24ee214ce17d29752fdce31605fe517609a60f8d2edb3ac6ca;
 0x1dcbf79109a7193b75fd86b82c1590b31abb899d0fc5da91e43fe9cefbe45a4a;
 0x2758dee8dc30394bbf30a412c6dffdb1c7b3c1588f4a93e9620db80265e128c3;
 0x18d1cf4a6c8482ec7330af0eafb66fdd2e4289ddfb61c36f76fe87c3648aafe3;
 0x2485597cfdf560f34e11989c881799ceb14143e0d5c4de20ee4a407904cf1e05;
 0x6151f2ab033782abc7bfd3aaec47dd9c428681acf32d745e37d0be4642aa764;
 0x6d2e5ef950f679c0195dfda3966ed8f2db4ccdea5739731627c012a453a9d99;
 0xb1e797eee3f15b88ce3a1fafec88da1d6329ac3c34712db570de886cf569098;
 0x2d3138fdcbae36004b71f47afa0ec092b328d2205d4952b47e9c90f286787d9;
 0x1c8e178d93f93f9cc56b13c437128dab31456360dbe2415edc316dd0a4cef579;
 0x25bea2246bf9516b6fd6299407d737b445cc6e2f158cd5944c194852cc32956;
 0xffdd4b3b72bb34089f3b91170fae0a6560efbd23ad5c76bea5e8ce46b7c9f3b;
 0x7c622418ddbf99ba65d8ffe6296f3907c1589d4ea2087034bcda1f7c52218f5;
 0x170dbdbc927d2213df51e928d1288f1bb989cbc074537cf64485b5ff05ab8f0a;
 0x6111fd3b375eb2fe504987aee580cfd1acfc7c39cb7a9171adedaabfa2656a2;
 0x25b706a850ee172c03d98a8a1a04dec56d264d07d7995a7bd3b50996f552f9ea;
 0x13a5b2bbccfed9c5c5f846496df832e8b3166104a183299b87cf2e0dfff8964;
 0x256b7b5635f25f506009162f09e2aeac9a24a22d194db0987e9e0196bf805ee2;
 0xa0d91ff25cbc2ef3a667475f91299ee679bffce4ece8eadf3ae0e86713e6c4c;
 0x1f799a5f2a9fe2846d8fcbe9fef4004f2aab2cfbd8380486985787f9e82f739c;
 0x8f8a5d38982c8c9eba1afb2d463d9b87cb412064271a6d721823ba76b13786b;
 0x13f2f9a571f61c75b4485d9f3f74d84222f1d3258f5446e9afb9d82bbccd5c5b;
 0x1ada050207bf232b77af0445cd3ad24ac2856a32df135462c196b718a4e2818f;
 0x2270c97bfedbe3b54bcabf5df1b60fee20cfa8b1dda8ba4c832b580d71930c59;
 0x17e429879da51390e1253592134df6fc0e6149656142baace891a5ac0b3dcad3;
 0x2ca1a03e86b8e8d2cdc32f998a9a2ae3d604104dad81ce44d7b70b7d2c147b1;
 0xb1e797eee3f15b88ce3a1fafec88da1d6329ac3c34712db570de886cf569098;
 0x179e9cc5ce81c3b957469968a01d8f4155d1fab43566892efeb4aac8e730bd1f;
 0x245436e222f18f0a95c5edfdbe70beb3cee0bbe4357c0ad27ec637b8276be10b;
 0x12082995e500dde2a8f5e3db03cfb08fef2e717c59536b6a48a757fe897af0b7;
 0x1ed351a76be7e560be38729f4c221d52e1b2e6b1c9a9906925d9d7fc659af29;
 0x22cea0520bc1691068292d1320ab844c4ff641bd0f3f8b3bce4e50b5302d4291;
 0x10d8cefa20bdf64f680f9f65e2f7f1181485743849125ee5009bb535fbd6737b;
 0x7cd86f2f3733907b2893e812f536766b45c7590516b8e0da820af563de5053d;
 0x18f7e2b8ed7ea1c7ccf0675a588747409ffdc5e0d9a1bd80b54bf47833ba43de;
 0x11ad65aaa14357d137232ee3e2460a65310bfeba447590580d165a80bb87bac5;
 0x149ddeff968dd3e4873a88f82aab2252e424934d62cecebf3c05e04101232c6d;
 0x216e4879dbeb136adcd2e2f9c79d1a899123ec8921531fd19e8f3db769e9b9a7;
 0xb32ffdc93ba89e798035496aa0f0e5f35173420d9605df5c29176b9c8fea9cb;
 0x10059787e4b7b91491cad89e95af648197aab657bef0347224aafea1bd70f0f8;
 0x11feafbb6d30aba9905fc46b2cfa8bd5a1cd6685c3411924f652003f98ce61f0;
 0x18737f1b8ed644fcd203182f9f71ec606dfe5722848319eb06addba0862192c2;
 0xdb96451b25bc2211c315c94b7396080febd132e48883ba5be7c6352454b2531;
 0x14a12c8868c6998c77975fb80588dc50121cb3fe9070179f48ff086ddb44cbec;
 0x64f7699ab015d1466ce5ba0fd8a92531c592eb91011e024e3a90dda0d38d3c4;
 0xb1e797eee3f15b88ce3a1fafec88da1d6329ac3c34712db570de886cf569098;
 0x27370d48e084e132bff2e3af0f91f787a9648ebd4fe7cdbc1cedec26c11cff0b;
 0x16f9385f9edfa3dcc7c06b94ed2c0d8609451634db5a4e6e1997cc144e1415fd;
 0x148bb2cb914552eb1ce755beda59e784541d31b0b9743c10e7d6d798afcff7d5;
 0x2e9181388b5eb930247bb3bf036adace30496887c3fe5e51a08501a57834d778;
 0x45e39ea727e4ff254ba2593f698f79e8e4b4f538d1b263912ba9f0d572a8eed;
 0x1174f11359628820efaa3cca1f5f19974f475fd989692911a7dd59754df86a59;
 0x2ed2ce65b2ae9ab3e5c33366e50e7f9a2622b21df40b38e6f0606ebbd6399143;
 0x14a902e483b773bd59d298c316ba79c4abb6bf6e625312672fc529ad2e1334af;
 0x1e68f7bd5130ceb11d06b8075b2da5fd09c5e2401fd816ccf5e6b14f3ce77b4e;
 0x29827cb7a70ff0095050678d19f2eec6994c2db9aac20c2328029b37cc1d94e;
 0x18b67ae206c91b0907dd5cb14430d2d00b7ca10382cfc464c9451accb64b3da1;
 0x1bab9c538b70fbb24712c9c9fcb250b2725138131fc8887dd31c0ee10d7853;
 0x1bb888723fe04304ff56a7c1aaa2a13edbb8c6d9b84c95c34cfaa32c44cb18e7;
 0x15b938c5888d46730f0efb92f3829ee53afc9b4b9b3e2a58729c31f21c078085;
 0xe56668d5e18b59ed8afb9f3b66f03bb0d8d0be49b2ff0ee4cf05802a6840a2e;
 0x286d890c9e0b00dc5a3185b312d61f861935f4cf230267dd147843d085cb9814;
 0x169b367b1b5b432d3e5f13374bb46fee87ebddae52745969b4d80b371a52984;
 0x2616061981a127f1f90517d00c67ccf537e6a1e60f76e2c18ceca5b4fdd39ac9;
 0xb1e797eee3f15b88ce3a1fafec88da1d6329ac3c34712db570de886cf569098;
 0x2505d3c4eb01aad3e3759156410967fcb1309f9028133f32b61fe8dca05e7039;
 0x6582da47cd85c00d4e318a61669afe8e1969d2c486e76ebe01968bc21302418;
 0x41b8979d269f6ec28ac184c5b2f02af58c26351c6cd943cec6adf2369cdb1e5;
 0x1443d53abe81ab259cbbe0494e98dddbd8284c1145321c2fe24b0fe672cf9115;
 0x78377bdb2570000965c2505997614b99e6affb63d0f8ac1d8909ffc8c2b7826;
 0x21343622cb874753f0d2c35633e7877c6f2f35247f080a1b0ef7012721579271;
 0x2726e864c23bab466a4e2e9c1e6c90bccce6114a31f4283b8a87be3eefbdac02;
 0x8c3cb7979e51a25092b8e3667b5ab696327cedf1db257537071a718d7a4a347;
 0xeadc7f0735863ae63f6d3a2d980cca143ddbc94203075b1a9341fb52b54e7b6;
 0x302733698edfe476ce1360d9dd8885e2fac48f10fd9b6aa494ccc84663016071;
 0x390d135ec3fb0cc6bebb4ffd755406169d4b71ab559edfc3d03da2739f99c35;
 0x29814b855ae75985f8c5a6475383bd701e5279d430aca51d87671614a2eec37f;
 0x1c8271bcd402c844d59746fbb8c809265247177b175fc929101de73f741709d5;
 0x2ea7af5aff4c8335a4556b1e621c3fb76e507132971a4452635d76310c241990;
 0x3758c3722cb764b0eef270fb45c6c76b9d03816b0feae879a3436fdc9ba2abc;
 0x2122e9a87a29841216a1c1e5dcc02363eb1185edc68f6eefdb38fc43454b588f;
 0x2e5132a0aed649314c6665d51926a7a15bdd6a1a5c6f5134faf96d52caadd140;
 0xaaca5b7aa27811dea3376af9fef0cd8275e8f98e235db83ab1361b4c49a834;
 0xb1e797eee3f15b88ce3a1fafec88da1d6329ac3c34712db570de886cf569098;
 0x203898b92bb3f8344f220e9f0790ab77acd669b383111e300fdd94d560eb661a;
 0x1d55edcfada4cde82093e306a8a85e703e70d62f77f83aa4158c7ae06558e2c3;
 0x1c57ec21152ef1becaac482ba2cd28adce9bce68434b291a73dafad3a2a4ab1a;
 0x2c77f75ff6857d39dc5e0ede6ee9b6574764e4ceb3d2235aafaf9d8c296bd1fa;
 0x264024c571ae242f530a593ade47778e04de4fafc1998d04196b3f8dc466b672;
 0x123a17496bdc1d2ece7ee0ab1632b43c278328056b8609eebfc76de77780e8b3;
 0x15d806ca8c7a7c727e02ed3aeb1210453d4d39cc3f2d188f421b58b7fb9b5fe7;
 0x2938fef22503472ffde7a36b04c4b36b639064aeb9d77fdebff756e82ed8e6f;
 0x1d5bd19b2c05765e3c4b83781b4d0037fec97bda292e3167002587051efd0445;
 0x5a5ea7612d82dbbecd031202c5503ab73cf5ac0eceefea81ca45697ad5dfbae;
 0x1dff1bb202e9a71287d999a4436ab81298e44daded91984d6422477266da4fa4;
 0x1a65f01a835cc6df08fe1168ef8dc72e04f3c84bc4129d8b1c57c7055fd528dc;
 0xc6bfebef542cd78b44786f865317d384a64ffabde52f6a5bc29f405d3e45c49;
 0xa06a55ed8f52246944ba9e1b351b0f04e95e8e3c80337f7bf4c4cb3682ccbe1;
 0x237af0b506f0185fc81451144bdf3ccdf7b66cbe1ad77e2ce4212f62d6271006;
 0x1d6b421f3143a560e5066eca69e6939c13cb2fb22bcdbfb96e8d55af76d0a7fb;
 0x1ea4cdc48eeb87bdc70e034a0ee1ce699e94b5b1126776f3bfa43c2facbcaf12;
 0xcfe1b82dde8c5eb500403f5ddedf6165106b28c70cd941f1b65e49725335b68;
 0xb1e797eee3f15b88ce3a1fafec88da1d6329ac3c34712db570de886cf569098;
 0x10cd524d82fe05ba307dd3aab96a838f6b1fb98e10e284ccc8f8b2b9585a647a;
 0x29069f8a102d5fd5db23e1e81b42867620f6af7e64b36f7444176a9febaf9a1a;
 0x3021dd41004ec315704a8d77ab12c93d89a3baba330666cf8b96cc8042eef1b6;
 0x173dbe8f25c7fa7ebb28578e0fd3103fda835507d8b53d905189757d6638eb50;
 0x1ec7dcb5fd4210ff0361f44b48f4818dfce283dcbaba35c96d77ec9888f43718;
 0xe52deb0da59b5f92497e0ba6a2a358342a8d731ce2f8c19c8df9d58ecd818d7;
 0x77276a2ab3c0fad69733ad1fd53ca148350ba77681b6bc98a0cc52bed3ee671;
 0xe62986c860d75a4502cee8d7d8932b7c77a9330c4b0884cd7152383cf21301d;
 0x1977e4ab4ef72d06317496905d6cde467a424f82f7491ade88b7027645c05600;
 0xe5fc86e5a4aa5897a6653760a4e72555f0ff79de77d4de9f5aa20db5afbc65c;
 0x133c080c57426c50ae24fbe4145ecad201b964fa12abdf7ed16ba45bb76c0d56;
 0x9809f0d9404684e91754565e4ed714b4853b2dfe29e44aed4df3df632f9664c;
 0xb9ea2ad9eb74df89ef8f3132245aee0f0d0b3c91975aca7660071a8066b9fcc;
 0x2bb6bbb4b8f9011e6167cefd64bb4874f6527a7eacdaa10ef403474e332824eb;
 0xe7505f5d74a168934234e8a83b2fd267bccfd4e6c79dd64fb024268dba03ea1;
 0xa96e9aab6d37e9d1a4d3e0ec375ed16cf201f7bf07d2db66c43d48f7dd06d2e;
 0x19109a9f6cbaa378475c1ae70ad79d2f83100b33653b9a16bd84cce3e651616f;
 0x2455d14dfc4e34f8b2f0c411722c66ec626c1727fc695abd1c849780bd746a0d;
 0xb1e797eee3f15b88ce3a1fafec88da1d6329ac3c34712db570de886cf569098;
 0x2720fa35b76500f2acefffd7ebf331c17d96a400b4084b78253e3284f942f855;
 0xaf8af05904f43895b5e9236f1782ff4338cdf90b962a3ac0d086812ae628cbe;
 0x25f57c83e4d1831829078d17e98537d56e3c3ca16318f2792b71a07055b11f8d;
 0x122275903e7cd0419e6c815909fd6b655ef0f3516f9c9767ef7c7eb3d8f22465;
 0x20da2a3fb1adcba29246bb19e16ec3a9f51abbd59aadf30737ff92b8efc61ee0;
 0x1942ef506c145d9b15ee431212e1be7bc2861b49e7e68c6ac9dcee40344749a2;
 0x29c8628087cf8197c8538332d6f0253bfa46480244ba31e30d23704022f55a13;
 0x23ec0870cc4460faa687538179bbb9f395a1715195e86a6bb5240d5477ef3193;
 0x220e9648212c6250017065d86188b9612f73f9039803bd329ba7040a9e53f14e;
 0x1e424309dfb1a00240f4dda0e4ddbce8f4ff4a57017fe888e78790e7bce6e92c;
 0x22dc20b39997ba1b40288caabd9dfd3e9f9dc4fd7bcd9fd11079bd602a2fe535;
 0x22275186225901c11a65a53e0a89f199541fc1212b4e96aa7bd3c5bf875ab52f;
 0x17ad868f1ce516279d8d50fd809a1c40e78010418c7aa4ee6a09f9b523a2a61a;
 0x27dff28396bef2873c44964b33b30e44b27a8fc1d08a09175f1cc9641584359a;
 0x9022e1272e97e9aa32634bc3bfc10224a2eed161b9b60f101595f8df207cff8;
 0x10e1f1602cfc30dc4ab3920be41ec7daf5bbe3d96dab568aeafbc350c5ee934a;
 0x1b1aa6b279c2a5fc8dd9a622891bf4878aaed7122fddeec0a20bcf2f9da868b8;
 0x283b86d8cbfdbc913ffd3849a5e70f92b69f5f7917a0401db92f6f1ea11ef2d7;
 0xb1e797eee3f15b88ce3a1fafec88da1d6329ac3c34712db570de886cf569098;
 0xd21897ac3d9b9e3be9e5d182d1ca0441cb3b92776df8798362a4bb4035aa424;
 0x20b3d4db18dd6de3efb359c8e60c86f1d21c20e7a9f1dbe67c4505ee7a3bdd67;
 0x27db9f494aa78c119ef8358a8b122f4aed87152f92391ac9d187f9cecb07237d;
 0x203a42bc685316f63fe61c9146a7426525fff758fc625540d9ad7a5602c6cda8;
 0x2786086cb07a5e84a7bb5516818a0139fbbb33881cd289a36d55dda334f0dd5;
 0x17197184f893d19475737bd7202447e5ef385d2b5f0a5e75533cbbea61e7d791;
 0x505d0e83c6b5bd0ba7da5059689f8f448b27321c23ab4da273db77c954d55e0;
 0x167393ca748cc53ebc1ae07b28ec6a3a2f0d4113b4bd302cec7c0b398a48715;
 0xd479338ab58fc837c9197c0c1c5a3ec515cc52a1a9b2d42b7a3134f2fa13859;
 0x21c2423dd4c9fd1d183de5619442f91ffda880143e43f16bbfd42806fa6c7417;
 0x2cf480612db52dc3cbcd0fb630a07a92e2ea594304763509450bf2d199a2cc55;
 0x71f821a426e22b9a20cfc997f266c5a7a9bb521f6a7353e25dc163a35c07522;
 0x1461f8fe38f4a760b4f4d09b51e6a126d4c5e9ea529eb18c7c94cfadd1ed45fa;
 0x1357d0271c479b5dbfee4a3cb14ddcedd8cf50365a31166c5462acae0b72b38c;
 0x2b328c0d80b8e81a1de5804422b454f019947f4cc167476ae5ac14862181abda;
 0x2e3b540ace24978dedde505b42c9bfab888ae08d442362449012e0806891b93b;
 0x1ce4c3196ea44d6a2aacef87560cc1df5d652527f00924c598abceb3fa9fae01;
 0x2851d688c92c184c79c18d06e3d80ef439074686397a5ebf0800004ed10b715d;
 0xb1e797eee3f15b88ce3a1fafec88da1d6329ac3c34712db570de886cf569098;
 0x196637f7373413fc37b3ac318b969590ff0be31ced0513dca26a263d5dd965d9;
 0x174d93a947b4b73d687a5ebb5a4fdac7afce1d9c34af4feb7ffc41be2aa210ad;
 0x1a844947654e868c7ee686ab18a2224639739de7ade503530f19e2743f3640fa;
 0x2ca2906ae9b528c0ff4e3e3257c8d319f8c1368eb73a80ab26cdf1ce15cd497d;
 0xa94ad92e43366cba7b3db85cb00b7b950f1d221f05642cba4d9519a6afc9a1b;
 0x22bbc0a3d2c1cf2c8556116779eab7110ea892f32dfb0ba1db5ed38c6fde17a9;
 0x1e04ab6b0dd11b6c3f59c29bb6fd62733161d74a9952794eae23df935454357d;
 0x229f3e8f6afdba218d948aeb539787170f4e836aee874123698c47fcf37c175a;
 0x995cb64172f8220d642030a21f1d525c39724738d58054d8cb6ac84a16aec03;
 0x12b8663b8e3a6bcd9e2d7d334c88c0fd315117db2052793a7c2434776efb8358;
 0xe306e47bc917fa7e38db51ab6102290228c40250770884029469817b112469e;
 0x290d8cbe5211d46c41f561e89988de784422a5f75088d0cbf2679d753af7ca2d;
 0x1e0aefaf9cd8ef424965e8ac51a7562e11506da29886ec17006b289370ec77d2;
 0x4df18fcce60a87f50455c9d563db8f7630a0dd63c55df4a3f549ce98663649d;
 0x95973dc58f6505b00c033973bcc95f1d068c316710b63260c75e300e8f20f98;
 0x1d18acab418de031d02587a3df05d9dc50321e206878959871c7c2681d9e9ffe;
 0x213d73843dbd3c4e90fe3ff4afb54f113a94a1e94ae7c93e062ab7cfd7ca42a7;
 0x13807261e197788f606915b736d04f3127e3a532870f6a2885a09e47c7a9bb03;
 0xb1e797eee3f15b88ce3a1fafec88da1d6329ac3c34712db570de886cf569098;
 0x250b609ce88f0983f177aa4b1293825acf49cbe1ccc1d0d2218eb7b54d8720e6;
 0x2a3d7388587ce77ad142e1762efdf17d8904edd69a6a90161b19a806ca2e5361;
 0x1905f00fc3b1cf3fadde47cb7e1b25bfd0fc503fa90b34c13b3b1d660fa8478e;
 0x28d30399b0b09d77d5113875af727910162825bdf73eea4dc375729c8b1b4415;
 0xf6056c7c8bb29f47a2337228d5bf342fbedffd5237d233b3f1505e09b063b94;
 0x25e6ecb2921119f783a410b7d24c83a5d9c917461edc62d0cf95d21be424a561;
 0x28da486586fa7a6ee7a2505d51be49e38100470b4ede3b1ee7a5c364ca500cf3;
 0x1e7a7c44e72cd5a635bbd41a543c9f46945b7851ee8b482871b3176557846ad5;
 0xf8529665d21549208b12388dbbd55184f23fd713258c518249d4ee7f3acda6;
 0x1632d84a0d31502ce509b0149da1a5293df1f8c11b2e2f10d214a2f52e4ca22;
 0xe576e8ba8cebe7bb81ab72d7bf1a08c9830ad49016e9bdb83765bc6a05dd3cf;
 0x116f9f8556eac9dddd689100fc4e27dc9a42c4534322f4e18379bee32b53adf3;
 0x2617cb3f694b9d35852d5341c15fa51a47076430dc407b88dc708a57a4dad9f7;
 0x2e1dabfcdc2242aaad7c5601c45aa376f8bf128954b04c477946e91893bcc19d;
 0x20561db57fda4a5d18be48461c4209d39b3fd760fcbcee93874249d4a56dd4a0;
 0x25ff336f1b5fa16576da765273bde6d1966d96264cc4e70766d170cffa123475;
 0x2ebcfead11a0a9f882539b2129420c8c952361a46298713c3ed4d5d6af8ec602;
 0x17f4133aeaa19e905765128b43d633f345bd34b512f2eef16a1dccebc1cc56db;
 0xb1e797eee3f15b88ce3a1fafec88da1d6329ac3c34712db570de886cf569098;
 0x1b3a49687cfb69278fcec9c9024c2cca61a3ef43728c21bdd11f378bc219aaf3;
 0x21c2f9fbd8e7212a57051f8e39c6e68f3849797e36692723f44e0861264a5676;
 0x115d3df00fd3bd6e540dd0390165eedc883ee6efc07b409f3675deb598eade42;
 0xe5729bb5e9bad3ee592068ecaa3e9fe83de56e38603925bdb9862a460ef4615;
 0x285440545506adcfdb2776c74d3aaa25f7a7b0de3b7c55f0e5b87fb7b6e0db46;
 0x233f80e930f4324a6a0b146d07acd6fc8f3d9bb48cfe1f072d75f58da84e1eba;
 0x21f9ccd305b8bc81a6b2116e883c69ad27c8455063e66e31d6da818ad1e74de7;
 0x28fe2473f0cfc0914c93b9a49af57b809d9b205f2631dae15c8c9efc67c5ab3d;
 0x2ec03f45ffe70531d6caa30b55289cff6ce7f852160797a2b9c90768c5c4692a;
 0x1b6d0de6db03f0bad2f0d4879bddc431708a821df4cac5ee89cc9c9ef70dd9f6;
 0xa11e8876f08f694ed493dd39340e775eb7a6a41aeeb94b274f24be97e39a3b6;
 0x17ede99ae68e039acf3cb8d353b0db916c2f2e721f19965a474f47f1341cdc16;
 0x18fff4f3ec52c43729d8294575f23f8bc41d85b9bea877df8fd12726dccc4909;
 0x21df71f2c6a62f3945fddce6d52d2aa7d326b29262ef4b298027c26473b9eb10;
 0x11b89da0475d9f041a5380c999272eb4f787090d1d55b9860ede80ba3983400e;
 0x8dc1602808b04a2f3c3a15545d364304f4f7cdb9dbddbdd6f632991d0a5bc34;
 0x7faf1ea463a24aa2845460d38458855ebbfcc9e1d4e775a350a0e88275d6fe8;
 0xee38f40f3c1ef1102552cfd03824d68bea40bfde95785d7a4c3adfaeeb4ea1;
 0xb1e797eee3f15b88ce3a1fafec88da1d6329ac3c34712db570de886cf569098;
 0x17fbc184678cfb88bd30c7b1c3d7b28864204d74133ef42de469187f5ffdeda4;
 0x1cf9d597555605a940cde10452784e867f46a2ae74fe0465f4938c46a546c3ea;
 0x1c092bb49f2b4366b33e2dc2f6ee171468f95570188e4b2995b925b5539e8d63;
 0x12f62053127e2084dae1db28a6d94ff62ef6a1a4732ab052b20395d0cd4ad478;
 0x1eeb4476ad29cbea12ad7cb44732113e58c0ff598ab4648df979c474eb3835;
 0x2c38250647fad3eedcae687b1ab54f6daa582bd29631c73fea1d2f5c403ddb7d;
 0x2eec86ab0272f57df25d8453fb38e9fcf0dbcad228ed15b9e7ff30dc91feb902;
 0x254f0f4597efcac8bf9ee78bbbfcddc5781f71565217ef7af0beec6e5d5f06fa;
 0x12a47fcdb1b19d720a4398b659b2c74c27adbd2c24ffae0101c4d129bece130a;
 0x1bc890c0199da7edf2f39365c4118f3c1d1ae24d666af9ffb83ab48b3e00a204;
 0x125272075c48ad5c41dc73c2d27de0026796d6b47932bbeef89bccdf92fb7598;
 0xaeb8e71cc24b05d8b4a1aafb1a16f8400cddb91e6d42fc8588ce50a191b8c4;
 0x60ece14c283b3465418c6b9a9f56cf9c96218b68576081014122ba05654b3;
 0x14728be414cd1dc79e436e4d72fd9392e44ec7d6093af846a49deb20f2823269;
 0x21d5f66e745ef28c0f7178722cdc14bebe02412911433fb460be724281ec8361;
 0x6bc631335961a7b600aec2c433a850ef58c811cecbb74bd1244e0304ec9b6ef;
 0x125b7c277f162a0a077cd6f1981e5f22dbda2a0b0bec465a384387527ce3ed3;
 0x2a2a1ff5ede20300c015be7630d8f1060ea8aefcc7ec0f9606e8aa8cae99bf4b;
 0xb1e797eee3f15b88ce3a1fafec88da1d6329ac3c34712db570de886cf569098;
 0x247c5ff976e2ad2713b0ed0c228a561962155f3455fe766e747b3cc613629cbf;
 0x28cb0837980e09daa3e697291898baf1629eeac4e46342bc071da656c7bf5fe;
 0xfa57cf86065e02c71402e6dbdc251b1b76c1205eb14d883d95b957b376c6bf3;
 0x1333d78ac8096483ce1959d954323802c853a4a0369fee7ce1261828501ced20;
 0x14d5ea7f1472388751201a664b15f402974aa24f6cda9a91a84d56b1b6eaa776;
 0x77a697d92ad2c070d058b32564a9efc7e1a037a1d03962db5f2719de5cc6c7f;
 0x27c6793303f3e75361c67fe56b8ede9c3b13ebc8d10e6ff787e69aad56595064;
 0xd69340f71fbe2b9772464b2f1fdb25c5d93cd365e24b6926705a77a890e08d5;
 0x1e2d709a891be7d5411fcb2eabc3cafcfcfdabab79964189758d1afaf70a6970;
 0x2cdb124943fc7c3287733a0a3c078eb98adc3938120ca02b14a58a46a44f4fa7;
 0x27af11497cb4a8d207471064e855bb48d8786f0b14366f833c710766612908bd;
 0x392c9300d049ca31025170880a47ad61b80b1dc03f3e6db3264ed1219db5b04;
 0x2aa58c8c95a91bd321d83ce2682a4b7d2f6e869a0a4cec637a272b0b30d58434;
 0x16f7b5e9d83339c0a151b1142423fcd8d2c1758d677a0ff7d1dfaedd525762bb;
 0x240b50d50ff6a5930a55ed800af55fc621e8b5f0333e022a49e1382ef80231a4;
 0x16e43d57fc3ecee17611fafe5e8e7b053808f780dcb1112d1841f4ce52c15f3a;
 0x18b989d920dbb70d51598fb2a6ba22b1825c2f3f05f7fd4897516fd749e8cee4;
 0xe4db6c770ce5d662b21e5b463d99371bec01b6220af53375b8d24bf76685d9a;
 0xb1e797eee3f15b88ce3a1fafec88da1d6329ac3c34712db570de886cf569098;
 0x145563ae8e6e1472ade73ff73dc88ec306cf540be2894be758c99953826664f6;
 0x1892c99793221d1f11e9c5637757db12c001ecef9965c00c697cf49ba9b881d1;
 0x1f965f8daa018ee30596706f17773d33e6835e66b8aad44e71955303fce6eda0;
 0x2935511ac83c99085b247a68119593d44307b95394392d8bc1e4366b54021442;
 0x907907697dec1e1a3bd179fa8ca9a87265997bcc1bed376bbb2647430afceb7;
 0x3396c267b0ba914a9c4ba45fe06a86a8b3960aa1dc12ed7943cc8a45fcd50e4;
 0x679ebb051d64df99a0b2c93744857adaa8802bbcc6c17cf0cb29776fa229e85;
 0x2f93483d03549c31b606b33224139de1998c0be6f9e4b900d9fe9728588c98d4;
 0x1458fbe748fee53d852d83b0e7e032dea42fc174733ee672f833d8c91b811a65;
 0x1a90f8cdc1c63f289f22cd6e4eb3bdd3b7ac9f04cca49d7d7d8cfb0f725805ad;
 0x132a4fa82d6276051f33621249f4c6692cdde99766e52b21a0896e2faa1ce5ab;
 0x1d79444933015ed9a7b37b53da5f35dfdd9da1dcefe3a454ec98da690ef1880b;
 0x268a91dc77ae88ff05486fed8eddebea679c01bde73d634f5cfb29babdbefd07;
 0x1e011a8f14bd69d6439cded45b157075e5d44ce51f4f9fe6279fa269e999e1da;
 0x9d4ccb992e2ed6a7d1e09649849084e4c7af1c79db784e239c39daabbc69a66;
 0x4bd333ef75b6e20a0a9566c7f072498868dbe38e028bead637408c6aa43f232;
 0x7a22ff875664c4db8334871b434ba01e949c60a4264e8724abbec4d9822994;
 0x2ce7c0aaa7d361da7d2d170270aa48f0a962db88bc02f6779be5a5079e40c85b;
 0xb1e797eee3f15b88ce3a1fafec88da1d6329ac3c34712db570de886cf569098;
 0x5c14e041616b9d457521c279f662e02245266a12b5164bfe05a7503440ef15b;
 0x302134832f0832bcb9fc6fbd7f03c49e7d5d081d455eb0e3267a6e48677a417;
 0x1ff1fc0a5041e83cf8c145b226ba9e4f38e42e58d15479caf6102d5f0a46c1b9;
 0x743a2f884e7cc1bf16bd83352a5b3324366cd09838da3b7af8c09aa8b907ffe;
 0x1602376f4173d959749ec5daed8394b50facff3fb8765a89b59b6fef0a7d1b41;
 0x7d2cb9c94b0a81818fce3f94e82bdfbd1074e8c5159e7fb0ffe12291e9d833a;
 0xbb2f1a3fa920981b76feca1519db3aa3c26b703facde82423479b244bfd05bc;
 0xef15ab6018db6f518505668756a151c50ce609657ac3a1390df76759e9eeffc;
 0xe6e886b5371587ec93eadca0b54cb77c72d4a709bfd9431c5e4eafdb1f3f3bd;
 0x43868f796a09019cee928cddd4779ef6de4ad17578c1eb5ed9ea01761f46a30;
 0x244a691b12e0202fd70fb283580700f2e25747c504c2a0ebd58993becaf84eba;
 0x7db83a16d8673bbf160b3b0d5d96e7b14040490acb6787052778aeab1bbd9a4;
 0xa38eb2851046d266aa8aa6d124f312e00bd995992adb16e47a60a086d5b7819;
 0x9afd14102f5641fac42f5aad7e1e04fd5779dca6d20f21819ef3eedc779a27f;
 0x17f1055f567a079eebc36cb46488e34062e598ff88e9e4280f0472021891d500;
 0xe742b77b8daced0467679873f984332608e5cf5f573295ab6ff101c86bec259;
 0x1e0137861ce424e6fe1f8161847e1c804525945db0267bf56e8af64c14cc2d2;
 0x26af9938a85c56e60ad89ac9ea7ac83e04f574d33d340f143ca5f058e2ae18ff;
 0xb1e797eee3f15b88ce3a1fafec88da1d6329ac3c34712db570de886cf569098;
 0xca3bbffa94a2440660ee1481664e28729a7a581eb47fb1e7f2b8d19b33a7633;
 0x56ddf288c8533174801eb64e46e332ba077df88559d617bbfdeffeac12c935e;
 0x18f68bd602682d1267ce57ab65f27dce1859bbbf29ea5ca4c1a7c47ee6921f3c;
 0x30595b7e6e83bacac2e1b9744f97c045f81ba17ab940a093f0786aebf107f4c7;
 0x636950f2ee62115195d570a6c43d18e92a3edafb2eb0389482211b486f979bd;
 0x874eb8555f4444b951b3e3134f96d75ad8866a0da0775fcaea7d80cc0be0c95;
 0x165b30894e68376015f8589abacd55512eb63d272ce68ce7d478beab7672b55a;
 0x19e4b9ddc57a559648da219a93cb0ddb0df84b89cb0192814743bda58e7e025e;
 0x25eccd6b96f10e2a0da8fe7001a7458e10c3e669cc6e9df84e4b108c20a7802f;
 0x12cee7ff70207b2601a5198a71c1430fe3754958721cb810b8de2fa6c464488f;
 0x1f99c9efbb41738ea513af1bb140f11e84ce414f08168e165620a36032e844de;
 0x12529d825e81e3cc950c208d2e40375f320daf93ae7e401dd21f31f69ec39dd1;
 0x60570f962275a45bde460c929edce1c9e56d5bfdea7f5165a9ad1f338e43278;
 0x13d11f33f4e872a1d7fca8fbe95fa47baf3e57002783f5503c6522c2835d8c20;
 0x2359f3c444f7908a0e3a80861a42251115f650fa4e66febf815cab17676fde4c;
 0x137c3d8494fafe8b81567121140a8933a957e06a86af79f21aa0786ee032071c;
 0x3527cd631d2e66d0f82218ec1a2ae78d58abbc17519750f028e010153b5476a;
 0xd67de5a809c3c17ec81f87ea47056557cd9a21c12e615f68b5a3b8b2be5ce9;
 0xb1e797eee3f15b88ce3a1fafec88da1d6329ac3c34712db570de886cf569098;
 0xe0a49d17b5fd53e41c716eeb7c3170aa596a3d994cf780bb4fb099a3e628ced;
 0x1b7180247c35af01d58bf18ce746e193c5f9d6cb530deb707cc81f01663c2409;
 0x2093c5ad6ec79e87b4c99af53c32b7c13559735acc74ec744a45da050d6d56b;
 0x26c4d026b6da4a405fe6d74238747fd571561b7265ee49910c447438e9c0e1c4;
 0x1fd3b662959f05a5ca35ae543da8095f78a4544159475be1e9d84592c526f777;
 0x1d8a119da46c01ecd28598b1843020f2affcffbd0d2ab74513903b0271176911;
 0xdef9ecbfc4c245d08fa20010a22886c01234245042181ccad19ec06eecc5aa9;
 0x2f389eb9dd0db3310260a089bb9d0846ed025ac437c1eea56dc5c7159e8474fb;
 0x192d09f6e1f97e95858b09dda316902de5e0b946d3050a296e86fb90c0824460;
 0x2abe84bdc7a81e92248e62816419516f31b9df3c36088df8b0dadfa242af8f96;
 0xec8036ad332bbb0d8eb631bcc55ff0dd1c71823b8ebd6b8e0699417b22d64d9;
 0x212d905745129480f6496bff628cdb728a729394f7e5dfaa13004a4dd6d7ce01;
 0x28b10eae188741517e25e6abdfb63f5c0b8234a453ba5f73d55731b126b8c442;
 0x2b55e73628a3146399c9c4328e7b7c2b06c3f9c6b2d1c2f06de3b2b54c2c50cf;
 0xa288f1c2c2e7b4fd66632360642bd18970ca489714681efa3a79597368000cb;
 0x2a98c6af21ac38e6d8f70a8cbb5988d6aa929c6cd8a7bd41de02d6a461e00398;
 0x28131733b6f0f9dcab73a997d3de4c14bbfbe517135d1a8d0559f0974ebb89e3;
 0x1a0422b448652f8ff28c4099a5857e35474e8864c82b0705aa291052fadb42de;
 0xb1e797eee3f15b88ce3a1fafec88da1d6329ac3c34712db570de886cf569098;
 0x759e02ddcf9c02faeb9b1441d3e04e2e26b1c3c21c1a69dd452798b1ecebff5;
 0x1e6e510013a7d26108d160b3bfcf269ff0f51a0759e1e1b2731f7c3fd9f65679;
 0x87b228c959aec21d112b82be8167799104fcf2f6a1311a8f8c6ffbc9b91c0d6;
 0x1db2a8fdf80413cfcb6c77e97c570ad471dabc38e8cb2fe680016f0dd6d2c5e1;
 0x2c866e9e002f7ba0ff4a92bfc05fd5a9cbd2c4497ad9957ac9434acf2a3d3aad;
 0x29032ecf930c2a41ff93c287e9bacfe4ed6435f5bb377527f945ddd90f02269;
 0x21a948d59bbbb4b75d7e62e29f28fdc1ad21e673c3d895d264f3cbc0b9c0e0f1;
 0x1dcace62396a9c5fefb317bf0771ba35e345a4e113a9be8b9ad3bb4f6a62a287;
 0x29f8ae5c1ee78bcc95db21cba9113f31c1046c41d866a70383ce008a9e6aa748;
 0x27c5c8707b69d2ab24fdc16a043d24f3a2aacce0994aafbcb79754e26d7a3c0a;
 0x2d34b96bbc3259695bdc35d7ddb28d896f64b94f0923627193d50d82930a61fc;
 0x150254ed341e43d3a5edf9fd4825f8094317dfe0f198f908355c9ffc0485b4a3;
 0x2c4ca99c167d67e6ad639409ecf7669b0a99ace688c6c9c33a34d71dd3ef3c97;
 0x3930cd56e534c58be531f7e9e2b9cb3efd62d541bb6580a1246dc9a4067a7e0;
 0x24f69e897348f292f1ff886d4992b6b108f1312a3b194296f07314af94c27016;
 0x2334c3ba5fd553bf774f53d77c3f556d404f487ad7597abf505626e5fc34a054;
 0x2d72d7bd580f41990e776a68e9a1252d1c5d003fbc9bed64162a1dda8952ca5a;
 0x2a311a00f6cd8196a6f12a725b9791b49f46a20955a0cc05435e136c3ffaf3e2;
 0xb1e797eee3f15b88ce3a1fafec88da1d6329ac3c34712db570de886cf569098;
 0x15eeb7dc60695985cc24a901b81f2c2ac6aee050695ab1de79e300d546b1f043;
 0x1065fd42737ec473c96a3741ef8119bfd955ab6066955d4cdebaf9761ae33e3d;
 0x17c3d9212a09026f12794eee3b04840280b12ab06bf5c688f02cc772608fad92;
 0x1b3d7424ea8664710a024d5f57c9d3b372e2c1f5428683da382464e39154bfb0;
 0x1122aedb98479614cfe5927434d6cb11a1ddea539e33c7771ca44535c510427;
 0x55e9bded4cbbba7dad989d9b1295c5230d5a799a6211895bc412ee24086d628;
 0x30263db0209be791391ad08f2108574a6a882f05b6c8055b0ba9e0ca8715217c;
 0x643bec3e72fe54060c78a6188b7098bbbcedd5ae549f5d0f95594d03501c1d2;
 0x24739ac04c239ad6549658ca1b7e0f62067bbd53c3f0ae9c3a0160dc8982cd4;
 0x831cfa01b84554e6f26b9d604c0f91447c6c5ac03ed1d318b7944c5773827b3;
 0xc0570121f291d8fb7b7a62cae11ea568a394915a9cd70f634830a5e36f93025;
 0x2994d07daf7152b5024957f7188fab4452714606c505530854cec14a582bb6e2;
 0x2e5ad16ef38f802fc789dc46eced2ccca71fd25cead1d5d1f14c482061cc703a;
 0x9f1fd3fd77d399d36089d589dbce43f1f563d8d4d927122bf29819a0224053e;
 0x1cdd5d1efa77002334e3af50973ad87009b6d26818bf78396b7d8924c7aac675;
 0x2bfaf90c55d63a08a0ac948874f9b1fb60c0faa0a530926acf868296f8478e0a;
 0x12d3e6c5009562c1647269d1b507123a2f0b7729804b66643f081bb782ba7cfe;
 0x36e9be313a952e3b77fa42cf13942e292982a7568964ff200356a1c6f82e473;
 0xb1e797eee3f15b88ce3a1fafec88da1d6329ac3c34712db570de886cf569098;
 0xc34e42c97488447c321d23db64b398c6c25d4d9fd1fcfd3b5626674a42d1cba;
 0x27d82eee53199316ed144a5591fdae1f6e2be76b469f606e7ff6759a8920dde9;
 0x895f2c2986316092a0366d6dd018ffd6439c477996b4d2eb5c3aed2cb0c1025;
 0x22ea26e3404fa1f74ca0be2b73237d0a44014f6036f9a96a1ad1b6a1393622a5;
 0x245f9c36081e0229dff1c693e33858b05299349c921d4163c12b8a60cddffd9f;
 0x120718feaf2106067a3dd824dc15c3639312811c1d8e57825aa782de88a2c3e9;
 0x1cda330df4f05747f9fdf518d146f9160556d32d06f8c21f9f22432ae2abbf0d;
 0x17c8bde1641bf784599b38a3ed9568cb3e2a8366bcedd556711e85bdfa71fcc3;
 0x3b039fece617d27bb74f64fb7c0e24adadab1215fa077988fcb513b7990caba;
 0x2585f69b3b7caeb08b4fd4403b72457ff3953e708f20a2a0d40872d5571dc707;
 0x1cf1dd7016fc72885e841cbf7e92c931d99a2cddce535f72b065485b39fde3c2;
 0x11f30f1bb28bfba19b81bf60611b0f26c1a2a7f6623aab774f999ed62be03449;
 0x179f6c3ca3fcbd7aad8e1ef759216d589ab51482a6f7395c93d5105ad79c5e00;
 0x5193282c4bce9d58154eb75ea6fa29683e2d2376d1e2b9d2265103b323c014a;
 0x13f144857af17bff0c12f0fd177a6da9b1b3b10842f4805689f124d52d1063c7;
 0x290400f022f09b1359bcb9812dcb353472449f4be850a28d949f914290aa598e;
 0x26a590e2d283ea4e4bdcc39fe4cdfcf9b8e974b4603ee78ba0cef07e042da923;
 0xb0bc561fb4ba346db8f28d41eb0bcc6bb1c40217610f165c5ccf4f2940ca1a;
 0xb1e797eee3f15b88ce3a1fafec88da1d6329ac3c34712db570de886cf569098;
 0xfc4b28f50f749c8b55bb53cfd3c76ed13a11e16eb3816520d732174b68f9694;
 0x1c2ea86841afa29997e495b0e1cea881562319d9edc2aaefde7b30da0118baf5;
 0x181f1de1e627bc0229055b2c08f12ad3b70d540b24fec6128e359cb8f32a8a;
 0x2a4b0a0fe77c7afd26b08ac0eec6a30854cac5eb8c070db07a0a3c5b80626747;
 0x13f62bb9fa1cf209e303e7626fd734710668d02b4efb3ec507c1f5a4b59ea94a;
 0x2b5f4bcb8b0c0c1aaf90e370e93b611bd34015d4f4083b6feff51c60fc7f90da;
 0xf61bfbacfe1eab14181c0b9ccda1da0272742a0c64ac873321c85af7c0f4253;
 0xf29b98701d484f65bde657f17209bb04d1cdc52d1d45b8357d64153ee0639e1;
 0x4f50fac0a62268e7cc24a64ce7f784bb1d7982be69a9dd168b0f191da33a5bf;
 0x31b6743a6fee9be625862c05ffc4d4c656e30e17a4d1e9a68cd906ba9c5c784;
 0x1b2d7a1f0ad3dce2e4b7fdb43de39d6044b9713b47c82097fb72721de84b629;
 0xf2090d83056f23a0a8519ef633ad3f7454196a1da06db6aa93bb72bab913dac;
 0x1f36ea15e1ef84a869d23f3fc7c3fc0bf425301e98022694e534a564ef69610;
 0x1e7fdf4b6edfd3e8e19e73fc8f938b96bb271f0a8b5beaee67efb0f5fe1d8945;
 0x58727d0875e0a1a590634c527e8b69a4c6e443265d013000cfdd5f00b9faac0;
 0x65c67297180d56cefd31cbde7691cecd344e5517d93d36a2ca00b84f2ac6406;
 0x26efd963a80f4104192b1e66102143aa18c6956b4edb14eac83399cbb957d426;
 0x2d36f46690e480d2cbfe0f647ac99c753cb01490ad79327a1192e7c5bab301d0;
 0xb1e797eee3f15b88ce3a1fafec88da1d6329ac3c34712db570de886cf569098;
 0x1ae20386490ddf16dc579da580c4736d5e20066e4ca980efec6c412d6c5fbf20;
 0x13855655eb53d070d6a3b9283176ec875cdd04a2310a8bc7da3778bba3a8bf65;
 0x216a5047fc9a6423e0dce5c2fc7ed22e17a889ecd7dc313ec97da530b0012dcf;
 0xce0a7fe4c77e0d037ce338a7272ed67864f566705e5422b954effa901c1190b;
 0x295c4b9a9a97eb19dd9bc5cbc4704fd57c100276b7af57e07be392c18a953bc2;
 0x2989d23a947312faab571c5ddaf9c4d09c22d1876e7d007847511d6e42c2f407;
 0x185d73d77a0e88f9a67e2c1a59d6473706e24c79b845ce5f9950f0fe26d6c794;
 0x182b0ed46716f64fece882661791a29bb29986afb83cc9e194efe397288aad4e;
 0x22ff21a0030a575a4c62a82b286a37188b4cddf6d4285c60b60d030db206b1c8;
 0x1313437aa7949a4ab64fe85327645748fd2a58e0e3d3b85626e88f7339d7b261;
 0x6efe22994b02451beba2f6d0dcbfbe9b920817d74cb212adb7f738178ad2f40;
 0x301063036e4697bba8d213d35d188697239bbd1b369e7bd294ff4dffd10885f;
 0x1c90fb3a46ac9ade74d20bbfe8403ef060fda9603773064369d4c344bef5e817;
 0x2c52c601cc0042b449329c045fea856de70f98ea8d1b5ce3a30ccf0fa3dd8a52;
 0x19034b0b0a87c257ac4944e0500e97bfede7ed2dcb148c9546e3b581aba9db21;
 0x27b086852644a1c773f0ee6c7cb6e58d7bffa32638b79b2990bd7f1dd683eed7;
 0x16cec1cfec5d548a707a44ddc3afee7db168b5e986eaaa885748a368d1fc7607;
 0x23e0d5c20594133dc55043bcc80a422dc9d59ff92f3e1a9e934d7c7486bbd410;
 0xb1e797eee3f15b88ce3a1fafec88da1d6329ac3c34712db570de886cf569098;
 0xfc871014612f0f2153585878907f011cca957eb00e86bc50f319ccba20a005e;
 0x179dfedea941ec28ce16ad4a6ff320656632b0750e6616889e853719bfc6e88;
 0x2200eedc6d000a31ba05af605292a6ac3db87e5e852b7edcda9ba306192823e0;
 0xe0627308b4486b9922aaff007d2dc88a4cb80da9d90be1bd13d63f3ed7e1fc7;
 0x941ece97766c9dd37c07cae87220151b9672f02bff4006700310b95efbf4f4d;
 0x2d8806727504e7c422452287f378c0a9b859897254372eeb4e4cabd2c038067;
 0x1f44136953c36a85d85da27e57a6dfaf955dc7e1d456790e53526625f470624e;
 0x2ad2db1a37881b1f73e5ae98d404672ece9487a08ccced17974e1c925b0f0234;
 0x1ff27989f4d74b500ad47ef372b8f08396499e4461ca7ccc5914675365cbdc8;
 0x1d9e4bb1ebbf654ac8d81380ab49c45c698f4552fc2b385d61f1729f9a434fee;
 0x269d2125ceaf4911300dab597dae2d4d97714a48abaf059f0060c26a6b462411;
 0x85fe9b1797ff4833c76f23b0dad53a01728edbfd28b9dd5097a727725bae3f6;
 0x2a1e5b7a8bbde19a0e4e3e189a5375543ce6879b8ac6c94b3541aa7b1ee5d73e;
 0x38f9b328c38f8ceba41d67319a3186ece9be1bc9d16142abc3099e2a910e1a8;
 0x3ebea7ba2a89695b6be00973736a209479d0e834a37f5ef2863063552d840a7;
 0x29a1eb861aafda5c9a36ac4c094cc8763b491902b18b9dd29bb1b8dc216bd96e;
 0xfe28a88001c17b2b1ceaeef8891bfc5abdb937c7fc6d51b2dfb56e5347c6294;
 0x26ae83ff720fb65932e831bdb0705d7ae60c0289f7bcfd89a020a5f3b30eafdf;
 0xb1e797eee3f15b88ce3a1fafec88da1d6329ac3c34712db570de886cf569098;
 0x1492bdc61b5ceb6fc3b3d91065f585e0d1b037bee203ca82743459c1ec00c65a;
 0x275f2dd31c5b79b5f188ae669923494e6ffed430e8c75bf202132e50b25c1a3c;
 0xb327a4ebdc41f56502186a656ca06819d1d29a32a6e70588f548c4fdb2f689e;
 0x2c5e3d0108521c8af0d038a617f2a0725d5003a5b9dd824a95a59ec6bde20b1a;
 0x1b611cb1e5f7f2a0c4fbcad4e9dc65da5c6a34190fb27a8148359d465165f9f2;
 0x22365c55c48c5736cb4b7dae8fff495e9c661e9e130af620cff5f40fa1210e96;
 0x73fb93220556a2bfae1e07d2d076caa44c085e2ba6644bf4256094af48ebf3a;
 0x213fb8bc8c11ecd95bb3311eb046398f377c3ea4208d14b80eaec8c4aff2bff6;
 0x1a617c5b998762909c55ac93513a6d19ed1c1e28ff8b78fb3f551158a9d0d99c;
 0x2e1284a59a10203966d53cdd502405dea6889490f9bcfc5a33ff9d8b6fee17c6;
 0x27c73897b8aea1c08380d8ca28d0405351b957b064abd17afcc647b73ab348cc;
 0x2bc53359578a242289a79806c04853ab89fca02a6232f152d05b3d1dfbeb6908;
 0xa8ec1ba29e112cfc42aff081ccd3e7e01410696cb5510377072bbcb2f9600c;
 0x2e0634f26f73f112cc5f285e4a232f694b79c05ac5bb9c9dab89dadfd0112ce4;
 0xac9a6885431d005e4aedee93dbcdb638cea5b17c363289adbba9ae9e3fe744c;
 0x216854bce3077af7b8294565ec200c0c455b9d5fb35cc98ca36a323620b5eae1;
 0x1603ef2a582a0adbbac5655b3c3202b60ed3c22e59fb442c2a7962b9031a33ae;
 0x2cfd0eb51e60c1c0869f5dd163666ee8630bb2f3b527af9860f8e23b2fe1a869;
 0xb1e797eee3f15b88ce3a1fafec88da1d6329ac3c34712db570de886cf569098;
 0x183f34db24beb7107f0f5bf9fd4c2532033855c37b5463ccbd658b68d870e6b5;
 0x1a5079190245f746de5345f0775f5ea91712edcb4f165f391e9c8f0b1268280b;
 0x249da4641b8f13206d3cb7b3943d4ff5d0813654aa5d8ef4eca39cc6cddcda09;
 0x2e99f0d1ad289d3d780147284155f335f34224f7f8d3db6b008d952a84a12f2d;
 0x1a95c807b653b762910fb0b9d8d0b4a32b000f490fbe925e0e207842a2dac0c5;
 0x127a15cfbd88e0c122b2905572c496df5eac209879a235afe08e8d2e631cf46d;
 0x1c22d61ac34f05eab74aaff0cfc01689132754d26de62038964b5a8acb1fb340;
 0x2ee46c0fbefbfd75eff882d395294889d915a1a1e858e18a5b14c4200754f9aa;
 0xab5eff34c9c0bd9fc90db5b058bdf68fab4f25eb7602e9369060fcb6df9139;
 0xa91d479dcbe07bdbda4249188361f7aa7e00c8edd81eb74dc176f19bf05e8f7;
 0x276a57e2c21843be0b10b8877849309b33d19089838744ffc2454199e6833f63;
 0x2a56e477fb4a285b4edb52b2f19fd159914ec3b384dbad98850a19dd9f44c2cc;
 0x2fc33d4b761a6ffe69a5f4f2ef4f41f727d7131a2ce15f74f67ba17236e89263;
 0xb9ed85bc3e43eb0c395ab7dfdcff5da94fa809bcf5d20da866a2e0712dddcde;
 0x2921971bfb16df44acaf0447858eae04720bff84acedf57d1059016932c0a9e3;
 0x1ef4f47e8d9e92d554c8bf9312e0c80f5850fb5f124421a4a032243627170429;
 0xb099dd3d5498781141cebbaef8b3c9a071d88ccca2efdb8d97071e878718f44;
 0x304a086e6735ef7a00c6d5fbc6a55daba181f3ca901f5de3c9a29f6161ba5f36;
 0xb1e797eee3f15b88ce3a1fafec88da1d6329ac3c34712db570de886cf569098;
 0x286686a6d53d085d60793a0815cc1b77c61ea45fc4451e7b99e9c8e6bc80dda8;
 0x1609e1fceea6ca88af1bc5075582363ff305d5f39683e70710f2f85501f4ef87;
 0x124f27013e00d9b8e11f6550ccbd6a2b9426da5f482ae5746601d82fbabad65a;
 0x2c47c743ff1069ae71b811ee87050e9e176a0461d8f6e0472af4a7d8328071bf;
 0x11a058b976dc5fb8424c68192aecab8f56b683f5eaf1559420349281d849d746;
 0x2222ec9d6eb62f5f431eb27a65f792b19817580562d8482027c7e84dbee5d7a;
 0xf866b167acb845b0905fc05dcf985849cc7b32a76c532fe2774353ea37f1fff;
 0x7197c02fc0c5f1e13bcd825e1f0df47111d16be06e4f90e1ce2452ed2758089;
 0x99aaa6bef62d6b1f3098bd34ec2916caada19756bfa2dd222cad7fc9b296c66;
 0x1a210aae2dc13bd0bf76b45124f771c486cd2c4ded5f125600ec961e3eff5d16;
 0x4ae93e4ec96ef4a97132edc6219ee43d41d3d3820331152a83374b363cefc61;
 0x2140d4f69e842e9257960fa14aa526f36d6b3204952c5763551600a17e9c5c06;
 0x16f77df72961ff15724b2cac0f79106cc9bdb2b3d25534263883e2e379722303;
 0x2a679813106d2d1a88e194dd55641143a5aebcc2204fb4e8f2cbb40f637e506;
 0x12582d2bfe22fab8079bbfcd7bffcfdfa6a33221fefe31e74edadd5e0e58a361;
 0x390e71fefb45b223ab77d04c90727eb97540b7d3d9ca70798bf3b3f97d91f21;
 0x26b440f48d1c54c8300aaa49b9ab8afe622d6f7579857ff986966832584f82d5;
 0x1dea175296f5bb238d04bdb371b31bdfe62974b0a219f55be2c3e644e82b5bfd;
 0xb1e797eee3f15b88ce3a1fafec88da1d6329ac3c34712db570de886cf569098;
 0xe0e6eeab1dade829f7d80aa510ed423c86bdac7b39dc5fef6df9b6932cc812a;
 0x2cebbd5b0d62b44d3f06728f5db838c617d933c08491c23b707220a2d6060af3;
 0x2dc31eb7528e36ab16fe4e845b1858b44b7f4ebcff8c5e2916b5dbc93aada42a;
 0x1eb3bec02ab6b2a2977c89984273b17a0156202f622edd7adf787246ccc75f2c;
 0x220f79359bc26509ccbbfc429980c2e65b195b3c8b0695c8765057a2d025a67e;
 0x1590491b1dbde002f869c666a1f9feb983770740ede60e726926dfff31f24806;
 0x2feea161ac374df1bd1e90c3d84f0bccc39efcfa6b34e12dae7ddcd0b3d7257b;
 0x1a29866fc7a388cbc6c3c93ff3eb7f37e1c5e83659b05b0522bac1dcb33534d8;
 0xb8199ba3edbfd7da088f17687da77fdbcce7f4730915cd9f18aa86cd03574f6;
 0x2791b7c58a031d038d076f7d6ac43730933a76ef48f203fe92400d60b98d6a2d;
 0x2f454625556eacc7f31439c8f2b0ef06ff37ed616f19533f9266f28ca846019f;
 0x249369afe3c0b2111d448303abcbc18110aed1a1a4456e4b3bda7e8e2dbefc7e;
 0x12edc078ee15bebc5ad4509f3d44d7c25607fbd61e9d464d84ba3223582de54a;
 0x22580da134a629da679be562a7a84163a1565af42558a04c64579d98bba260fc;
 0x1dda309f47e45f9a6cc38c7ec04588c51a650c8f0f101044ad6c0b14a5b0e6e9;
 0x2ad483577232eb393cb943dcde6c616285468d4b5af36779d86bd789c499482c;
 0x28ebef81b1b34667338b9828e4858f956349d34cc99584e1622e6e676c221847;
 0x1352a39d4ec27f0e72f991c448a1511e1e7ecc4f4e76b705ff2551f2cd17233f;
 0xb1e797eee3f15b88ce3a1fafec88da1d6329ac3c34712db570de886cf569098;
 0x2697ec9fcc93302d5f66b3e1c1ad9b203521f05ba99903596fcdb8fb70e4cef;
 0x957519127bd1afa0826384ece846813066831571e2aaacca4494fbb2a628c48;
 0x1d8a3eb38e9a520787f7b37c59fd309e3ecf19a45e4e4855b53dc670de8d395;
 0x13ca248a44825ad1fd500351378a1c873fcbf6fa6aa3da48c274d1227afc90eb;
 0xde6ab6ae985160148e09d5d5b35acc7b0f61cdd119ca66ba72a11c89ffb99ae;
 0x6177434dff8487f01d4e7fe5dc1f5963020409384269ba24b5751da9470fd57;
 0x195ff62cbbd66aa75406290ea773f0e6ffecc1fb8be9b6313bd30a4e0626b6e5;
 0x17ca97378ab5b95fd548bdcf531da28e4336edffda8d3c5adbed45b7f224a04;
 0x5b258f2284fff0798c69fe24b70f96038cef3a3e7bee367a51a7e62907669dc;
 0x20a38dbc01d5a38c6908056f5c4862c351754fae0750094c93cf54bdcfe75b25;
 0x27649f4bceebf6d71f6581d40e0407b020dc73ec56bf16748c61854c6afc6c84;
 0x12eba7df6b9e4a5a1b7b92bfd51d12e756831af7133a79a622338cc53e19fd5f;
 0x8487f84ccd636bfd508b5584d1cdbf24cc1605c779e5300d4328bfcd4dd6db1;
 0xe780d26ee909fc75487670a4cc043740af57e89d045b69ee6babd8089746bb3;
 0xa58128a2fdbf500e89c8b81a8b883bb5004b4b29507158b7947178b58421d30;
 0xb680246f8aeb38b7e4eef807ecb493c3aabad1d705435fa2bb37cedd04e9695;
 0x2909a2616f3a24ab48ad9f50e4f18c75bee2c2f434bcba5ce605c1dab5721877;
 0x143f55ba8ee25793ded43c6f14c92025153c79c964b44b35c886af59bcfac0a3;
 0xb1e797eee3f15b88ce3a1fafec88da1d6329ac3c34712db570de886cf569098;
 0x216f405b93971c6d85d700b4d991a983737006cc1099f0cc1c6c98a366d5e28a;
 0xefb44ff1e32edd4f8db74ae8764f6493bb0f76744f41f2f1f35205975b49020;
 0x125e52e4d58e859809ae43a4865b821c65e630a0de0a2f4cfd5188ce3cfa93f1;
 0x4c652e865b682c60c57f60bd33a174e9b9b22b52a1d47aac4aa084b1174b929;
 0x9cad80a5de2e6e280dd9b65d56860754dce0ab2becfa07b30853a32af5b011b;
 0x81544e3cace3761ab3563b6666160aec7a52d7331dcfb34e7b035d46d9aa6db;
 0x29c9f89966182d3c7c4bdb1c751fabf9dec6ca6fd0f3d2c4b2651fcd35916a67;
 0x25ae65ab6ad76f18d3423dd2829bc059e43251ca5491c2e11c04e3e241db0e5e;
 0x1821e88b8cdb1686c33ad7c1dcd41c61f47a6435beb00bd8d68644b930e7c317;
 0x1abb95b6e33243a050e563b5c4fd059de5513ec28994a6f60e57c98d3bc8f586;
 0x110d213a836478aa301bc1fd4edd388507d87745b3abfba5bf282afd21f7242a;
 0x18edb2d105bb53b768ae0137850dc2d2bf6d1303a1f8ee4aadf76d8f81990588;
 0x1e53e92df6c53ecec4c0de5b07dc4c9a0c5545f2abcc1fabf4ccb84a0a6e2c27;
 0x10fcb817e10f69f7074e64c393b807cdddf33c84a8b5cfe33f44b73fe18c0e36;
 0x2b1d8c11fc652c593543b6f9800bb7d0c9371dedb96f08bbbccffdc6cc44db98;
 0x19f473e40c05676d5f8d51e11336e9c65cb32828c397cc8125f1dc667b6cadf7;
 0xfcf3a4d9c6c3392de1bdfe25cfb86817ecb80c51be17d47f79750201f1fcd01;
 0x23b02d00fe2634889673a7d04736fe15b9f62652b1c0626a19af8d6085d70822].
(* poseidon_bn128_constants.rs:3741-4554 *)
Definition bn_c11 : list Z := [0x752af3c6fdccaf3868276685f0a69b9749e1706a82917b64ec2ef847f804559;
 0x69503d417e25f4568c7858ba8334301c0fa19c1b348bc7e18a4c1ace1d15418;
 0x25c1b121f33f4cf7b308ec4630f27b603d22aa81ca3595e801c5fa7d9770a096;
 0x23d6b55145bdb32827c1456af4d7be4c2d213e825c1d2f0c9ff99b2273751f6e;
 0x1b357bce3ef3f2b76afc2b5804805adb14cf6bf37fe2357c79aa7d6b32acaeca;
 0x28ec5ac0881c1e6426ba499409894a6f3c276fe5689f2c35c9027e80944877d9;
 0x2c9862524ac8a07b47d211c9c504c8b0bd398d028acf690e4b8ed4005dd06eed;
 0x1f6e6f0ac4aeb7a52343f30418078b40644cd43e290da0baee92891c4c065ac8;
 0x3db3517e233f8a76d21b2fb23c85fa7cacc577769edea09aae39407b9af2fdd;
 0xfc333dca4183dab479c5962eb05ee4b79a8ac6e0cce9e9b0a2142247bfd0877;
 0x1eed281978a8395c04289b86197673b0f2b65e1a135264527e250a5cdf99aca4;
 0x2568bdf6511034343fb5d5d021e052d3080954fee357dca36fa5d78f33b5be3f;
 0x1dafade374e63251deca970591da4a285a63d11cfe64661fadd9a001dff82330;
 0xaf25c781abf56fa4cd6833580e97c7a60eaa97f1dc32b622e895df3a6915b39;
 0x13501451cb7d3e0cf3cb57741fbe8dd59757c9367fcc48fa11deb135427c5c1c;
 0x197045fcdcf15bcdb247d8fbf6c85c80f2d065f923108559a1730d71c73e56ce;
 0x1a390d7281375fac249b9855f8c67a275e8ff8a0a821d1b305c4cdb1313c8661;
 0x17f0706f7e12fb022d15f94297c7b45947755e5e84c7b9957659be1de64b737c;
 0xa8f5f03f19d49799b6fba650c06e4aef251ffc75243a8d7aee8924d563f7e49;
 0x24c9e6c35f4f819f5bc1ef26576e16d2c7c7206a0598044acf0c18fc5042f0e2;
 0x2405ca70d51550dc14abfee18e3823b9e979072330d547133a14b25e461fd5;
 0x1eab4cd56f1474b270d502945621d93e44663caf8f1d31d86b156e107fef38cb;
 0x66b9750f73f4561ede55939407e74b497d4deef598b873c4b4a1f32ae425d00;
 0x1ee3dfa596f5d87030a6c9d27d61dd175b271179408235f13bb3f84ea28e7a42;
 0x1ea94b9ac6fc1bde29d5893fdcb660ed61ff7b2c65b638a4046eab217c02aae3;
 0x131388351f0796d4753ce564e754591cb1bae02a2dd54878281ac6e7a3c069cd;
 0x1a45a017fdbe53619a29d8d31f27e408f64be10bf05ce16c90af3d1f13886a2d;
 0x1b4a0d68e54312b9fa67550c5c0ff0d88fe57822dddf9d58d9d2215057aa94af;
 0x1d45d369ec0399905bb029dd9fe0b97a5ced1d29c7b5a39da358ad226691dbb0;
 0x26154c9c51df8059745bb2d97d9a9b8cc8f3d3d813dc4af414adce1d69920e8f;
 0x2b748ad3da43c5cb9412cc64313c8d4711251a7080ec5b59206e7ac8c701730e;
 0x17a5468fdb1e5fdacd9c9fd0a7f5fb756e05f2f2fb4104b2cb48d830fed13758;
 0x2697a5e22542123f0923b86b1529a5405ef809de03ee4129b2baee5cb3bd94e6;
 0x9b07ad43370fc4bf9ade610e1addd38d9d962e84d8ddb109efdba69916dd489;
 0x69c194b5b9f2301bc48d6363c8e5afa4a75ca2f8a009e15ad4ca11a17c81a1e;
 0x1a1974ad418cb372d555ec9af0f348b9729cdee681eb0e4479b90bb720f542c9;
 0x18a9d8d34cf2c633138a9eb9eb29820c85b7098895826ecdf2e1bf040dcf0287;
 0x2e0554839dd70a4b9998fd915327fae14685eca623d662585186d2f124ba8bb0;
 0x1e6d0216c8b678bd9e890ccd72d23bc267948ad87fab25aea6257f8cb7012803;
 0x920932a6c405b1ee871ae173949731e6169a24442d8f8c9ed79ccc7a24a495d;
 0x142c42de6abfff58054f6a4bda8eba5f7f10cf39fbeafb8d39aef30e884fa3b8;
 0x1418edd88e64d3ddad03f33ca0936172444bb0712d646a8bce67b2e451ee0d81;
 0x5c5dcf2bd5e04ea65654fb473c4d4692e9958a5999abd7e5cdd706cb7e082b1;
 0x114464311fdfa11eec166d202aeefc601e4d16959ec936a9e8f1b2f97fd35ddf;
 0x21b713b0fdb238f3b053f6d596caf07223b2a9d1fcca758321a1d9175c327ef5;
 0x15ef67cae5838a50bc671a5ea78e87b48bc98e3cd7bf76d5fa033093ddc97581;
 0xbf88917cb7c570f68b39429d8fee0fcfe583306a6ca69338c349026fe66bfe9;
 0x1881f0129a64b7f861085f6b3669dcef57e568d63497982780770b4bc3b437f9;
 0x2055eb732a72d37cada83f04ef741785368d648d09cb50142575430a110e89ce;
 0x19b848c33b3876bb168846d13897cde6b0b9e2b29954395b39946a4f5f26d003;
 0x1e19797232964cd5f26ae8a2e04bd7b3dc1bda25b541f3d4a059b48fc952da6;
 0x28b8dd78e8712e172486a4b278ac8e166b1996552c74bd2fa4bfbcba3913457;
 0x1fb1cff73196d134c30359da15a530b1a5741aa0e05788a9d4fb2032aff0d586;
 0x23bd3301f59bd655225f85c42a9466bcd7c64aa93637ee27aefecdf288326039;
 0xe2adaeb2ac7d6944e287dc7c833015313d3f2beaba25ea4c1dc6f0e3fbc8e34;
 0x2f5d08548ef73d65c2853178cbcbc8a70c48003c0d1386db7288260d29a52d0a;
 0x2f55c0e96de74a61fc974df0da85b11ac544b5c8544ae59ad76cbc03889e79b4;
 0x18885f739a9c3dfeed39ceb7c8eef77fd635ad52e3294d3e126a92a64c5a4543;
 0x1267cace9cec3c1a96fbda5f20df309df88f9edf5684a05bfcacb11167983082;
 0x2a45c0484448da31b253b632f39c3d4f6c6af8e3e399ddd393b820cdec66f902;
 0x2260279c332583a36011973aa7626d4e81d6382967868a9643a76e53a2b25316;
 0x28ec82446ae8bb21783f54cd4daf07e279bc0ead04d7a313769f662c8e74a0eb;
 0x16e13570deffb3bebe118958b2d86470578cb112969bc6eef3a1321befdac9b0;
 0x2288e83beb79459807cb77408c9bbdbdd077e620279986f4e2f0b3e5facaabd5;
 0x2db5b06f1102b72ce49946084d75f2109ad970785a8329de8e225a410e243389;
 0x2fce39a19ea115f3a917041fdb267c1b5103b5887e5d63c48eedfdc533699758;
 0x2c65ef055b28fb41707c324a36a894c6ad9f862fd1f97da54459c5db0bda55af;
 0x29e63a24c91235dc00a6770b9e572358c18a9063a34066f8b6f56683cff48ffe;
 0x54211c56cf9cdee64b7daa7677fe9f235e2b5c99c5d8b55de20d9aa612c72c3;
 0x108e8e83433f7cb1728723837ede94d073032ab66e2e0fb6db9787b39559d73b;
 0xff9bfb41914e199a553e070eed9438fff033cd31476589149a9e60d5058114e;
 0x6913bc2e37230d4b6f56b44697d6f80418d7c11a1d20d8484e95b067f935bf0;
 0x300d3b773b9a41ef818fdd12202f499d5dbde395388a81c5ce3bc3cc8b488099;
 0x29f9b289721fe3001937f6c487bb30e342b344c71ddd0f957d02d9295fabe594;
 0x14de0dbb50a0aafffb3994762d1496cf51449350b5dfceb0650667f7db7f33fc;
 0x45cf1d37629dee9289fcbe4823519deb857ef66cb39cc6630a3ac6157e9e0ed;
 0x1e7de46fdd23c6aeb94addf6cb999856322d3ad6d5803cef88b6693ed13590a0;
 0x2c033fdc57232e685abe9aeb18a5950e59f666598a0a9032afcf58aea772939b;
 0x117eae65ffe6634241265348d98472074e89cabe3d8f9f55cbc74ddbd9843e4b;
 0x2988e81a9b5dc22c8b3c7a9d01344422f2483364c189996bcab079912d25993d;
 0xdbea591b66a2448fbfb886d10b899d656fddbea4e666c0f14465e09ccaddff5;
 0x1edf424bb6ca08ac8c4cdfc98d6d3fd04000ec4c6a8628d5e2b3b1263234755d;
 0x214306c0105f363d5259e2141e97b7da41b9d5115048d1ac8483fc688a7034b1;
 0x242e00b6930be5835aa5027493d3b11e311877265a70210e01216328452fdc98;
 0x29154d0128cc650989dabb8ca0b18dd5beb1ebac0f63fa47be96e3832012197a;
 0x25d22d54d9c82d7cfb89c61aa62ca150506a2bfab5d300db784d25d260827d0b;
 0x2f23f0ba299f5c0976c16eb3b88306892612873923ee88eaa2db8cc10108f5c6;
 0xb743a8913bd8e7e709e68311a3585efb096708315a9812039f215899f4294c0;
 0x264efa00929546cb4ec30a621c3c6f661325872864ffdf84d5adb61af8dbb3d0;
 0x1c49d76663a358387762d208dc85400e7acf1b65fbb13edb346df1f2a10ace37;
 0x2f40725d1eb518ae4562ee25ca08b3e56dacaa511bdf82d099fbeee5110b682d;
 0x2651bbf39215d6d6632a652ace6ff5118555acff7d4c8be7ee3e206f44ee7c00;
 0x2198f3b0a3fbd0bfab07578d40d7fa03e50761ba8f1f2b018613d65b091f3eaf;
 0x18d4c4699f7d01fa00edadc43c8e1f10d92a4f7db96c2d9139bdd6fb11fea408;
 0x59edbc553491ec6b94233d53b5328a5d24b6e49f457190bcfd062a5822957cc;
 0x129a61614b4e9e421e6667daa9b85fe14beaa822b3954e551288564bd2b14552;
 0x2e2bfe4d7b3234df6b62688bdcb2c8767597ea3f7b7792fb44377e71e1ec9f16;
 0x1f8397cfd8eaeeba4798e9863737ec54572f6a355ee47cdb827a7f20dc389c9;
 0x117db9cc9140e4670bc74e7fd3a6fe99b87e1781d2ae191d011c6d64e02dcf8b;
 0x11e0cce35b68def7ded5522f434c486f287db0b6bae3cafb231dcf951598f89f;
 0x25bf4ae30c44ddfc8700e2369aed7f568980c6d48e33b6c63737c82f942b9230;
 0x1153f5c16d5608a17dcfa2fcc5ff92d0a41d0fd1380b58d2f77c058339886f6f;
 0x41bed39c29afb7004cee993fc222605cddfe641fa3a096c8013f38b5cd85b7f;
 0x47cd5c5b0c2a604ae99c842540fa37d44e6abec3657699a116b84fc42ad5d3d;
 0x154ef25e671486db8e882181a331826dae7b9739f2eb6c8f748a30649aa4180e;
 0x1b483e74f41c2658fafd081b9cb7709df288999454496a29a492eee79efb9622;
 0x12db88342d014b56fdbf93dbf9d9c082196cb34e0ceddfeca0a40904e2b8cb2d;
 0x944263fcad7635a7e8ede76f4fe3afb205cf835f42a95c0336de6c42ea5a990;
 0x2e7ac6fa9dffaf83a9ebb6966ef5464e4429b98b78b8f14165c501546970b734;
 0x4bca07a15b585cd27790768caa382e99d14cff8fa57e2fdaa115a472dd4ec12;
 0xa230ab485e781468fdbfedf32413aa400c839ea855a50f1916b03c6761c034b;
 0x1621dc3c8c3db86fa83059f4a3c41298aec8ed93c49c53bdd2587339b216ec74;
 0x1b4e4bc4f028fded0daa5c1a094feca0d05094fafebd6619348e1dd9fce168ca;
 0x1a739e55ca644e9ca0ff28062320977d9738b357287fe6d8727e10ff4452c799;
 0x292800e8452a5666cd02b1756950f8048c367a2439adea3d942ee3c3185cfd92;
 0x1fa371d9106b81aa664c11f50cd41d2481a91439a39c0fa1311ffc28c4484dd8;
 0x2a786941b8ab631a455f1f0bdbbd3eb9a19cda5d76c463bff4ef12200bd6cdf1;
 0x1521f303fd41509e122d6b7661d62c911fbaeeee821fa2e11e29e70c843fc859;
 0x242af7a107cc7bd9c1c5b2537e5eeb794c677827c5663418bb9a2c9dcef29157;
 0x1cc30d4813bbff4b91740cc8ba20bd06afa9d217ea012ce12d14e0271301e77d;
 0x23bd2922b425af4d8bdb587b1cc08ccdff010ab030431664899a4a323b29735f;
 0x150fab5986eef5bd1fefa92aab5002530d9f54cb7e65633cd5c310555e0b390c;
 0x18b43cb064bbf3c83fc2f158ae785aabc730df7e5c6ae3bbcaef613bc0ae707a;
 0x13bb42eb4e73787060889be175018b8f2e5a28a1181d777e2aac1c993acd6698;
 0x1ab89b566dff36a95f8050e843494740ba34cd3b35d0b7c97bd2d705ef842abb;
 0x2d5fd90e717d8af8d5b10f73844c6ca50d005940af09546de8e34ff991435fb6;
 0xb836d0d581914218db0e93c8598b388972a479b35c933ccad984a0b6ce94bc9;
 0x2ecdfb150fa2eecf4c34c76d56eb29a44a94003996fe3c7fb9d64d72d352e3a;
 0x23578d7d5ec8ed31b2d7eb794564d389025fefd00652195dad122b400a5196b5;
 0x1ccfb8b4d93e5e08c7c4c4f30635706fc9df759375fffa6835a4c1c27f222796;
 0x1c0cb735346164ba93308881d536f5888873d4441e308375e8e6b738a1c0cfd3;
 0xb73e5b78e0d23f77b0fdfd001738191c33029c06dbbf6f410774f242d0023e3;
 0x44715c00e5fcb99c435189c1ec24b3ce9b8311421f5b1f38484ab7692c6c632;
 0x1d3b3647b8ea345e92cc286f1bc18b6ea3b3a8551d0bf1a5b95214cf2310f700;
 0x1044b915a339a2582a6e7fb6a66f2b97bd6182f9946ada1e5d3f764ce1ab0ce0;
 0x1813db2251e3d904d0d30bb86be2d7c5803a92b87375dfd68f976f4622a51534;
 0x2808152f5685bfe577c94fca9d70962e5a08e0f6fcd8d92182df7fb3b2b3924e;
 0x2da940a1e8c89a6f983e3f988a4e79759b5c6987ba11f3f51d9a53d3fd1d4011;
 0x20fb1d869cd192c87e34254e4b48f222f997b4526a3d3f9c9fedf51cd1670269;
 0x1bd49eeeaac3927d1982829065a4db42698c0f5d5febcfd48ec3bc1059959f1a;
 0x135112b374480642311b6b142704f21684dd024e0ad55ae02728ac322689e66d;
 0x2c9e245c71832c690a7ca3db1cdaadcdd7cdd39570bedc14a87ace5f726ffeac;
 0x1a319a5ab3b2a9e95eb0c11a5a12b79e856929186a1ee3eb2872ad86be73f564;
 0x1a123c31f99d5ea55bc42ee322b7c070f4ccc1fc26bece9f4f3eb44b90513808;
 0xb23ffdea065c8e75ea0d3bfd966dff136d6602afa94328439590ff3e200ef76;
 0x1c81f8e014ab25b8ed79c5e1bdbf869fb1be1eaedd875a7539678046bd1a3314;
 0x1bfc092f4701d4caeff6ed32605cc0f3543ef523858bf7de922363354ac3370;
 0x16068fc89b3388fe5bd541a72eebf297689d1e6f978925deed56f2ada6d01fec;
 0x3bd9dc121e7e98b549441bcf073b564d5a9d40e3020de4d1a71039ef2630336;
 0x1d0bbb93d9c927a609eff76c3ca95ac6e94e1893c88ef2a544fb5f6295da72c2;
 0x20e9e2dc88aea45883e13db206222e4c21d4e8eb954202f2b90c211cac96c9c8;
 0xa69dec0cd8a399fff11902a34afe9a1331f51ad13a7ee5a71efd7eb8594dae5;
 0x867c910850d2f230f7e5a03b3cf0dc03264d5b6f2661105b675c5ff41575c89;
 0x145603f8fb5a0cf56bf71b9e6ffff83127c2d0bb368de23c69fc7a94c844c404;
 0x2b8bb76dceafdd4a12be1fc9437b9d406ffe2144b7be46d9a56a410d17da75c4;
 0x89bc5ce0fd41d90b1aa659de78346e05eac7d054f1fa5fa7db91c07fb3fa7d6;
 0x27bad78b8cfde47a264cb63481b5a0388f1339cb21f2cc32905d82feb4e93f93;
 0x7043ee703d2b1b6ab8641fcffaecd107bcbcc034abcfd46fe967d8417fd3720;
 0x4f5ccdf4036bb78889335f68633fe091e0da370d2f07e6f854f67049e54c0cc;
 0x15b1ffe12147ee71e3401b3335e78681c534bcc58fa9f80a8130509dc0820256;
 0x109b0548eef07fbb9230e92b4cfb7441873a44edbd265fc152d65018783cd573;
 0xf07c58aa725aeb731b6af087e7c5ccec5a3796ad74c872a7426fbeb7fece87d;
 0x1d1342ddce6e4469f70a948ce109108d3b1e75b3733ce7c9a237a4c5e5274514;
 0x635be9e7e8443d3b2886d154344d243daa9578c82a38e252885c4f3bb138b10;
 0x1bd4922ac758c0f4c50bb3035b7ed4b5618ad0b714ab468b5eab988cfd8c2959;
 0x2e1a0e6f84c93342b4d529f88184554976e21ec6180c580e4a58634a7b74759d;
 0x2f1589be5a127698a4783ba48722e4c9a9088c7c9edd9aadf9152b9dd839f2b5;
 0x273dbaf645f1185466bfc99b676c6187f8415b9fa2e1dd6fc6435f0a3ef35526;
 0x1c11b76df042385ceb6d0fe269cfa150695919e047b4807bd6e9a3cd4b4e0a22;
 0x16a0988d4234ecb090f09db6bde79af35394c9b3ccfc6a0bb444dfc6c7867359;
 0x215d025730ada1788e2024cce27f2a53ce804a93a2fc60452a0cf948fb03a8b3;
 0x2cdfdb0847de8099ed8a941822b15ef9e91fcf64325af2202de42eac92bbdf21;
 0x946dbe9998dec541da39a9d8ea544a7e449e26a4f9aa87c28c7e2f118961342;
 0xf958982b43f8fdc2c3785c4ac3e631d5c89fb94e0c724a7a65c1c3218b67e40;
 0x185021b192274b1b61952ad219cab61acc3b36fd36188a1b8c12e56d998c5e84;
 0x24d56b4d52b47f9bc6dcb7ad353eec927c0e7d4212a2e6de0eac44a210260b35;
 0x1098d58fe7b53523eee81510b083fdadca004b549468cbd201b0a31c8b7e1d17;
 0x24a99bc48481068390bc48330c113b7921ccff028ad504583976e7e30efc3c88;
 0x12a7fd0a7a6ed9c0eaca3465ae557cf318705146f72f7b4e4ab24934dbb4c673;
 0xd42adee447d6aea66365bf01e5b607c52848089a845d1fcffae9f47e0716b16;
 0xd5d109de2579f4e5ca2763a37d1310930dddef69c2023b167ffea54b0c4aaa;
 0x2efe7e744a2f0e450693507731d9c0492a077d194a02210022acc59e7ea469d4;
 0x1dc37644bbecdc24f85b713fd19af55b6fcad311b77b5fe3030a96d5334bb833;
 0x243115568da36482d004008176a75427fda366c9d07bcf56c7b0f4821c263764;
 0x2ac9106e5d82d4e200b257b0b222cb30957327beae9834fc428046a0f5926e71;
 0x16b852944570287d6e02c35a6300392635820ce4883fd0938260f85555c6c0b5;
 0x29dfa400161b661f5264b4158460d4776f3e862b7b8235119430f7678a2a2a74;
 0x25908a5cfb1c210f3afcd6e8d63173a6d79dce7535aedc57aaee994326c386b3;
 0x1480f56b3a68ef41e5ea44dff254aadddbf19d50f0e990965fcc89bdc3bf3546;
 0x2c1490f9335e14dbfaeac6675595f6b10807bcfa3e49a76efc9032f5f53af5b8;
 0x1833f0ce5dc529d3576a7fb481d8f70fa6e2170d31c1031a255cd800fcb262b1;
 0x26d36461a1c9f3a3653590e8273554f81fd51cc430f25bee2cccf55e2e762733;
 0x29027f0fb381318f8eac14af24f76e1707dc6bed2710362256f16dbda69a90ae;
 0xa4cde8f3d42ed48fb3daa7589036f4994176cdf07a2ecc3dafb54f9d45d9b03;
 0x1fbec12feffe0889cc4a31fcae7d819cec482785e190dda2536e2c4011da8704;
 0x1b26f238c7bb8636782bc0ee48a931a309274684014ce72714005d98b8d8c666;
 0x8ff4df0c027e88807b8b6e55e6bf7e643fa60c66d74a33dc844ec1c34598ee9;
 0x2207c1318e959e4a002ad5015d381b29915de22629a612a1b6da389ab86fbc24;
 0x9fcb07e82193539b71d0a052d3977996a09f84216bcc1e46f11ac84d5d75ef5;
 0x1969f5c20e80f10e71ff42fe5af7bec47ee7533153678dd2ef33f1e91fbf98cf;
 0x7b65d6a874f5706282479ce323f36bf23bdfbc34769e11ac34ef2494f2bff85;
 0x9e9ac4c51b61ceada2c861e276a1c0665f1b069142f144f80c46649a65bc425;
 0x8b74eb90b0e5b3013347515fbcfe94d8feacfd5aefb9546e1e5adf59ab4acf7;
 0x19351714ce3d2e3e93ec9015c02e0fa056f68ecf8d1c7faba519dea116e0217a;
 0x3c4a15bc97488139ce1cb928f474505ad5bc7893a53b3cf1c9ba21d51b00410;
 0xd8b7773df335b6a9cf298b08721d640290a0b17d5060f0222f263c7417d25cc;
 0x1e14c212fb7679676af50c3711b1917d6599f620652b8bdfd244251667aed9ce;
 0x2186cc6cdc5271291a9b111b98bde50c62a28043d90aef654171bb70e429fade;
 0x768dbd4b9074b435467927d1187378c4b174685aeeca35788de665f2812a195;
 0x63f5a888b7bcd3f8ae406ba40e11207be013618ad5f811cc317fc1e558c79da;
 0x17807cdc2e72f05b3371fce98fdee5f3553eb4ce92e9398d702f938cf9ee741f;
 0x25f3dd0be3bdf8e632afdcbd431be7ae6601549304475ca580d13741e2a7fd92;
 0x2274a45e2d69064bce67e2eb664db45aef4f1d9dcccd157bdceef7aae145f6d5;
 0x87ee7936deb77a97b8d7473f53436cf3fb1ce85df07ab68a028b46dea841701;
 0xaaec0f75e53087db937a974edeb32eabeb633ece1180f1f8437abc9099df1be;
 0x10cdf01e8c61263b446c3f7a10cc29fd01ed91fad9891f9c6fcb7b5ce438ba95;
 0x176627a92072fa2bb64dd5dff9cc4a0d5bedcf3f22c91fe991cc6568a4fb54ce;
 0xeab0e158e2f672c68a7a0a48328e21179a417eb0c65b1b617644e1c52c4b425;
 0x2edf1ea1cd97d1a91fe7901e64c0f2d12f7965741da5a7c7fabee25eac3b47ee;
 0x1fc07137863b1d337bb5dac18ad91237739680a69eed5da0bf35062f4d4cacc1;
 0x37bdff68025bddcbed554ceac3df66a9eb298966d79308ae414d34227aaf862;
 0x177f68957ba07da671b9dd919f2433dfe5f363b74a3c16169481c57c5b5c07a3;
 0x6d47b9921e2502c2abb0138d3b1028b02b85f8f42362cf43671b60a69e9e60a;
 0x131d58cb8a41a753e767e1e97cef60d0003e49c8cd1f0f5101c861b177715da5;
 0x236ca76235d9e69472c9985f842e626f33b3fd4fd5f543810a0c5d2143ed4c9c;
 0x2fe7f85a579916545907f2a02202b83696b64d1f61e813730cebc06d068537f2;
 0x4952326bd26efed64637d4fc0f7a4bb528e3a341260125588e75aaa88f62d71;
 0xc2dfb577b78dad18837bb70c8e2990f32325bb418f4f66263a2b63f3f98384;
 0x122c682293b4892d51255991f9cfaf96e25140bd6b37337ea7dfad5e1242328a;
 0x11ddc540d4a110e482a2455112ba67ffb3ca3ee54711498db1a372b9cc23d145;
 0x2f6bd71f6b2f3af3d468820c80aaad72ee48a337f1fe3d7ce01bb89242106a1b;
 0xd6a16d136ee77c35f216f1aa0ca9e09bdc259e715848ce047be056a4a09f787;
 0x2e7c6013d1be62a78b4c0015465fb0b293a07d4605dca6422109096164b22b2c;
 0xd6bbf18b7eb684adec412713570d3bfb36fd0f569fb36474f694b11b2948ba5;
 0x12403cf8877ae510b7314b7c75ab5b0fb7fcde2e6ab48121288dc04d5b51e594;
 0x151b3acf4ce3297d86e823a72067c71717382150c080ca3f8012bb0ba2fed47b;
 0x2a1396702063c62e07c512b9d4d181d71d88b5681a7e47fd114cfb682faf4f98;
 0x25cc49f3508fca1873a6f85b6550b6e1041d90ce535c638d2b523a61dd7869c6;
 0x1fd18327a0482c394723b152c90544729cf4040bcced94e8a37e1c9e307683e1;
 0xb27566ce02bd4cd2273fd531336c0ebfe65a5b0da123cb31bbc89533e518b3b;
 0x1a9e153ce82bf2a6fa0d71d1889c24b5f111d262c82cf3450f9ca80608ec15ff;
 0x7ca794d5ac4f40f0fec4d69e3a3cd1f472c7446e4e27fc1fa4cdcdc8605acc7;
 0x2fdaf44c707d8289da9373536a6f61b66494fa9e9e782e0e410405efbaf504ad;
 0x154d7c7e94ee06a436fdf59b501b763be8dc7f12aeec0752b79179267d643a74;
 0x2c753b7779a3909fa0cb0695a9f33a673532bf5cf394f40bb8db5ec5fb7a64ee;
 0x144ef40df7a262ff41795d09590112d63feae75c3533c0ab4bb9ae43d61201a8;
 0x22c68d6cd4bb18163791274a28ba33b0d138e148d6d80b469d6e95197d164883;
 0x27ca38cbe8b2ec8a927b6fa011e982323e56da932c24d73095177fe7f8aa979b;
 0x36994c16973ea012441dbae792fb3d06b139addd7ccc0c0f353be33d8873ea0;
 0x242d7d1bb8ed3658035034b55e28b43138c56c7fa9c0586978056aa77decfd3a;
 0x194576547027c4224e9cf6de762a5169ca5c18ac5db90108bd76021bb9b0cef2;
 0xe823aa11624ee571f23da021d4d7990563fc9898a7d0ce684e535fec79fcdd8;
 0x82858a4db283919b56c0bc08b89386724b90868a4ba170bb1ccf5e112205c4c;
 0x217822675afac3da4a9137e0b172532884aa670f142da689569db24f5b0d650;
 0x274c614c2e392cee896b7850aa7b6fe952b7681959fbfd7913b43af0f5858bb6;
 0x27d35572895d61ef77994592fc75251f440e5d120133252049385ee1be25aae3;
 0x2b391acc9c8e452b35f31c91bc7de27e00d3e625413d27f6d60c39d00c74bf7a;
 0x1b6320cc8acd98c92ca849a5b3ae52f2de368474dce727a0069e97cc0a546b5c;
 0x2286075e6a96f1a55fba6f84b3ca4974e87016864aed62735ff0d428c0ac91f4;
 0x18aada171822e8e1dc3da76917fed163a523bbf82123dc98f4c097e17e11deaa;
 0xfc3fab45d405fa715ee3ac4a279c7003885e52023e6e36e5d71f05cf5f3035a;
 0x1ce99509af24e048925eaad26d294cd555cd12e1d65881777ecda694a5e52a32;
 0x2e26c17c921163b5bb3aad23ffadd47dd0dc4449b94c90ea3eb4e4fef138f727;
 0x15116a7c92e6d9d46fb7fb51adee5a862aa2fa762c690991804aea7df5cfd3f5;
 0x18a26a0800fcf288aa7e98f047317210e6656c87be903bf19a92e7c2a499c396;
 0x22d7a40e7e4c1e76dbfbcce1601c22469b7fbfdd055a3f953cfcfeeb47a85c7b;
 0xae771488eb4bf107cda3042dda3495899ec5fc437921508fd29d5bf21807afe;
 0x17104e0440a812a33f825fe57da99dde13c1bd3e10de8ec967a5deee234cd701;
 0x2680e4afc93fbbeb972d842f18fa3a35e1ce822ce02a629c3696e2cdb2894a5e;
 0xd64fda93aba5c384eb39bfc144bea57b13d11b27d89323d2ae2748fd54f16d9;
 0xaeacc635139009646db8941410c819e087abc601709b1f923f04ea67b5f58f3;
 0xa8a2ed2b2158fe6443bc3b11754c14521db193335616c785a073f69cf15bf38;
 0x7b133a201739ee204c81df78b20a13e00fd8c0a386942794c29187aab6273bc;
 0x118fbc76b7f861e02e9ae5ba516960c91142ad7c4af11563e1adff97f863ceb5;
 0x2754b4ff473681f3069edfabe21dc75f4123a0ccad5597d42779a8120f54f022;
 0x190360a036668714837675f7e59fdf15fa57634f4db0c2c24a80d26951c1ddc2;
 0x222922f3670b5f65cf34b2b2665b40a187f3c303c76bed52017073a0a18dbf53;
 0x109e9fc20acfcecf3d47c04afdfba926f30e1172a5d506d1241818aee9cc7c55;
 0x16213b42dc9dd4c9ef91500adf2ef8708851787374dceee4d45a6645a3a69b30;
 0x24023ea68a2a2b008acbc5d4a15fcd0942b67ce952b0e1a03ad175066f755920;
 0x247404c48faa06e6c72b1d050b905fa3ebd774596b4cfe6bb4d57ac38070859e;
 0x1d868231e2df133dc0212c6248179cea17cb0f71c4cd827f5353806230d8916b;
 0xc314749559c134886fc12ba1326e4ffdc33028d8eacd341f510f1dea2be37ae;
 0xcc1c33b5320c911b47eee03c4d96ea2b25bcd26e3711d28cb152cbc5b87d2ce;
 0x5f4c3605ea09d4b737b29fee87e1c2ba74d332bc19e6d3e8ba947f0eb3999ac;
 0x5bd7ce441a3a72786312e63866bb986adbcb847b06476f98c6b7f8b8f042457;
 0x13fc4c0e950281ef4e96eca60355152f7c0b335e0f36bc1cdde5f3952dedc132;
 0x153c2f89d6681e7f94df511b9f193e2876884faee1bd3aec26bb93493a064f03;
 0x16fcfd6ddd242be8cd4982678cbabaf4010be47978764ee4d14e952dc4a3a118;
 0x155435d02b33ce45b9c3b6f3f1090930fc0a9fa99788927e504721ea0668cf7c;
 0x669fa7d440e3a06db6fb80c876a36245bb693bb7960646421621fc2c391c5c1;
 0x2b57df93a096e78d7f14eb117a9a5c5ef69d96cf45bc807e55d89bf980e8ac76;
 0x1e8a7d19a676b3263f85a8482d95d0f3e76be0b6e5c9ac107a12fb9e655c8713;
 0x2a6de0bded2bbe2b5866801f880e47e6bfa69005a0c185897c72efb56bd98a87;
 0x99ed3a2ae3f0f6d0a67a1f79b55a135bd066cc32e5942a3fa2572de1348f840;
 0x1e7d7ce084654213565d6ee21bf1f27b3d8027a2faa810517efbdfdca997fbf7;
 0x2e703dfbdc86f5586edfa0221c81bb6899143210bbd8c66847764aa4f63c65b9;
 0x505b0c3df9f92959a41fb36c72d85bb826d5672798fe7482572b5f41f37194d;
 0x26d1fc920ab60d7fc4e826056f7d19c78275087ff9116e356fde302840ffd3ac;
 0x2b3439c16b1af27bd7a4c8d9ddc6934e7b9f5e10aae7cce40ce6a937506d510a;
 0x1e45d86bc184f0e086020deae34e53ab0ee7123b3a1190475c6e25e06f832154;
 0x23f3e2f49ca1c95434b0342156172e65dbc6c9f8321cc75e9f15a66c3bcb09c0;
 0x1d8c2e51db59d6e96ee69f68480d1f8e48c03bc876cd7915d888b5b0a11a21a3;
 0x1e1dc3546a86032cdf8b8bf7f94a44730b662f8a56ad862ea1247ba2ab0f3d2b;
 0x1147e82c00df45e182d416b8338ffae299178da5f92d8f9f9153c695e7859447;
 0xbe94456b9a03c6cbfab9d8a34b411e91d20cb11f5624faeb3f78f38247e90b9;
 0xc4bd9a3aaa923f649b9cd1cbd7879574b266ff2f7c0c063b5c44d6b48cca3f7;
 0x6198c1fe412e25887115b54ff87eb4f1e2871d4cf377969ca151fed5d7b4dee;
 0x1ee90aae68a6bda42c34a797d4d31f79679ceb41b587f619d620e1f5108b839d;
 0x11aa5360b586c21447711b49721e9f4fddc6b6c98b57b84772d6fc6b8be017ca;
 0x1a41a67390f922f10cdbaaa0ce5eaef61d66b6730825eb98a24d25987e87be58;
 0x24a2997c832fba549618926afbcad00ce920788393df128f8a5416d26231615c;
 0x67036caf8b57daa59ad4514773898e1b22f8e88d454bc1f8ef0c82cc93a2772;
 0x2f18e853f9b7b7c4b1b4c3f0d1a2570b035fd2b4231a584139adb7a11221bc33;
 0x1b3874144923943beb66ca8b798d0bb8f2be7f8dd9dedac6d91fc5b9e53186a1;
 0xef5849ff458a11dc413a2d8abea9888c62241c3c285afe3a1b14cf71574c3fe;
 0x196a36a231753ffd0c094642e27d80ba201a549af584ffa9a70a8026817ca668;
 0x2e02fc222dd56fe6568a345add3c1d577898a361847e58b67576f12e3034a8c6;
 0x2383bbeafd391d96aaf0ba7481467867c67ad39366ed8c43b42520c6292452c1;
 0x20de2cd5ce733ea00a7f167f686ae67192637321cc9f0f4aa7214790676a3f75;
 0x1f1bce33439afb8dbab1354b46a5b9ceb1980b83514095d65e513b79351a9907;
 0x57b8de9d8ed593b5d214302ce88ee08f1812ef53cec6e05baec160c054d6747;
 0x26777acbd88e932b2552f7813e62f368ab8b1d626b685502253a10c8050a4a55;
 0x1589c939e2e3efeb8cb6c103476879101fec7a530ca18fe4bd2f096ff44af40;
 0x2a36b79d87c963b1f47590ecc4cd69142346a54ae48bc3f573adf719b4e09719;
 0xeed87708b5b00a42af3e6de58d4cddaf22278be0ee6344f2a775132fe107a0d;
 0x2bf84fed63a11695b639727e18111ac2083d936ce64bd51a32dfa9f1b0e71325;
 0x164a6098075941c6467319c2372463c3ec7adba6f6db9a58ad59a678f8f18a39;
 0x205075ea3558a17b0c51ae3a107d898609e3cd5d82f8df8c3f74b1b73b08973e;
 0x1f1e3c76fc69fd8acfa3a9bfd0af695c10c2bcdce6d8f4d1f7b76d50419b4376;
 0x69982a9b25bd75814397b6d3c8a90781e1733be57f7573f2fe44dd35618c54;
 0x2f17582941481b5489211befd4bc0dca43d4432ce11153a0fe735e55474a2393;
 0x164531eab380bf81f6313f32f5c255a9badbd4edb7767f990c46b0fdbe9fb297;
 0x31f46a8b4455ff121bc184a1c3551d4507a17c888931f3e99d356a9a06ef8ac;
 0x11334dbaa6f7f4140d1493bd188c77628dcc782c5ff82f1ebf41ca094815741a;
 0x218b1d38a6fd11d6566a52fe136e2c82de229698e5414b36be8997f060e8913;
 0x2effca369cf34f74248e37ae3bc74299187e16a75f2ebe40467060500eb93c31;
 0x7e54138f828c24b98b3511392861ae9c5876550ff0ee776663c3997a8f1a116;
 0x297e1fb7da5497d3dbd0798a146d2fab9ac5b0e7906d8588238187b795001fb1;
 0x149016a717fd85cc7df7f039ca6b1b8b06a5bdbda365a33bb0ae228900e53b31;
 0xf9e7a22124bf50d94db9231d63685122f92db5268ad2148ba534dc853bfc54f;
 0x1a3519a62fa692b3716d11b88e9d62aaa0e43bcf03c7ea81970b1d802a867b88;
 0x2bb67c5d6c48cf458a293d69b2d1d44fa7c2c6088e7b7f9adece3f873dedfb95;
 0x1fa713dde3903e41e68f09ac2f34c9b1237a445d5195c5e361c5bca31edfa972;
 0x2019aa92adf7b5e795f0e539682e4b39b4e32bb6520c711102aebdd0c1516843;
 0x2253b9233d047afa018c40c49fe9ff1f999432a9c7df06621b2504a46f120cda;
 0x1cea08c49328f5f053c6b47cbbc9559224be1d81354911a18926a98e047bdae1;
 0x123ad23966a42c729713094fc352e466e2646af9adaac20fd8e58f308d2736e1;
 0x1ef59a7e266477a644527ebecf0bbbcf92ce5f80d2280daf826619b7ebdf79a5;
 0x19ec1d74d7f3672f9bc66be9ac40f5be702b7bac80b4e33eceb592f86d5de3a1;
 0x242646c43d7f28cf38c9acaf8c63b1b33ff07c778c2ae68c55d4893a927a3a45;
 0xe2c8a604553db3b81980fe40d801cacccfbcbd79992430fcb50b04a42cbe9b3;
 0x2e77da327c869b63fadf3824d718983f2cd1f7f8ae64c88f5e8a500a34056aee;
 0x191ca3be9eacc6be4808bc1668d814499742a1167792e33d70d35b5fd0ac2736;
 0x2a26e10b714c8c92c42331368736018850b48a0e5de7936b2cf25eee46631964;
 0x5aa6b2e25b7ce4c170427081a01190f2364872d01e51e969b14d984930c10f0;
 0x7acb3904e2ccd87ac5d9d7b6b7b7bbcde3850493371e1b10bcef4cf32ff2085;
 0x5aa9ca5f20dfc104c85eb2bcd80dfe7bfe69d42d1ba4400bcf0d8ad53a18c09;
 0x411a0b6eb09fffbe966876683e86ab965280186985f72fac6da310e80175dd9;
 0x1e165682a562b6dd29cef850b2759ebf862caf71e348b42027553ab1e7f0cd1e;
 0x2b65e92a1f91e38b2e7f192ebf0bc60cd224ec7c1c67b10d1e5f634fdf526b74;
 0x2208ea7d1fc63767b1d3dd1e7fcfd4b13cbfaacb0f9f531b36b0bc74d364811f;
 0x1ac718a287105fdd6dcbdd6e3a9f833791e7c345891b6ab4760e6e2bb62059b4;
 0x98090f723dea7b927edc36a8eecf84630c92d0138f90dc555f6a48971f50e6b;
 0x1dbe00faa3343aff72d37b302260143bfb5d4e5bfa4a0b3d0a62223ed66b4d6e;
 0x642c365181ca2ec3e423d6ce74e145068a43f88ce053575a2ebcaf718860998;
 0x245611d0d8047a24db3d78131bdedc67e345efbe3ea7f6c7a4fcbd3c642246eb;
 0x91ffe3d519525ba080e1fab546709b2dc62a1793e3811ec5161c800b487f54e;
 0x2a617ed588722d3acf4900b3dc5015724b7c8cef458cf9db494d786a26b69e4e;
 0x1302868a9ab3b6a36cced0f80f53f1a13ca436e2d7c0f9ada90040affba0a8cc;
 0x1d903daf4300755be0acaaf9ebb4414795bc3fb377e5903f89ee9b3efac052ab;
 0xf671792ec6b8bbd0936abbc039d2a868f523a0050dc0122f5d9669b26347770;
 0x1045a4241667a8cd38078067970b02dce9c35054a36fa51cd892d5d2133cf271;
 0x28d738f79c07b35d2df772d562d54346dd7a41bd07096c36c2204320a6760b2b;
 0x2d245b5c1c1a732f8283446ede7e846f35be9d49cb4f3f3bb4e5e1fcd1789d51;
 0x25a499ca1907638351edbc836c1498ba7c8f2e14bf99f0bc2b8b86bb89b4eea1;
 0x1be3f4d7663b949402307b82b828a15f9423f9be115ca9ac4584d4ac75296bdd;
 0x1b67eb51facef5814a30cf5794a95d4ad1151469ad4d851d0c3366ed6b99320a;
 0x6ad69201f948e4749ef9095707fdc6591022c78cb6fa047f825a41dd3e495c2;
 0xa4b8288548d5fb3dde7cf4bbd1a0881e5e61d99b1d52d0f82e8371509654119;
 0xeb4a9342e89d9cf0f482c41ce66e40ff7c7d8f9ad1de8d1d8d48a98b0054c93;
 0x1a645a223471e2cf776be1bfdb7060185e5a58a6b651a12a8969ad5a0dfad97e;
 0x302c4499d41e259ff761ddb305a366f3e7c2b01c465777bceae1a67e6b412c1;
 0x2c17e0b7f901b93630c9da99baef3c5c2f5a644dcea6444357a121bc2aa4274c;
 0xb0e36da8335e243dc7fd59cc2365974d0e0ffa247c54ef9617a80f76d4195cc;
 0x129e733c1dda2ede8d396d85fd6bb8b6e61399f2311c09331c7ef2f9beab22bb;
 0x2cdea7eb18f6146b67c437f37c13f856eed01d5e464e8870447c5c8b4befc4ff;
 0x2ad4f0216033018e7d2a550c2e082432614f407fb60097d4505ccfcb31d67745;
 0x2aac4f54256835bad96eec256641a10fc44d0d63fd5860fd475ce818276691f6;
 0x17e25132c09ead8dfded691b9081b581f1f76c4a86f2fd9c9c29d2433f4d228b;
 0x2ed95e493ac979a091bb6d28e81672ec5e1f1e39f163e5f4b9948de5b4be3296;
 0x161ce63d596de69443d7f542fff36cd3c110c33cfbb445c9cf3b70d9081e4f0a;
 0x193efc77ea76010547c5bcc600a11f1d5a80bdd7796a6b3d9a0daf66a0b8a4bb;
 0x1449a38a938cee3b56f505f1ba2325b186e2ca22a8435f241cfa443c6000f7e1;
 0x2060ecf9aa31db3120201827fcdf6b5ee7f1bb93d550187ca2dbbd4a4205a7d2;
 0x48dbcdfe2fb6c50968e825a958357646779546c93340748ef2e05794b48ab1e;
 0x302fbe9b13a3eed91a823b0b4d3e3621413408497e6c3c2fa49d9c8aa36f408;
 0x3e81925a3fd5f25081532f2986507e0ed91276cbaf4ce0860817ac7bb838e9b;
 0x1c549879138d434cf3143517dd9bf2a322224d76ba5b3e4de34b7ec490407440;
 0x8120c7ec356e16945d94e55e835ee7e2e91e410315dcf3475f82d270d16d0ef;
 0x130646400633005168c1e14ee27ab8d238d8ba7514c903aaa591dcde7bfc1863;
 0x23e9b4dd3d1f30c37cfdfb3a83d45e524f54aba1c067ac1ef1ace082ab43479c;
 0x285b38aaba20c38b0459f4a48843122b6473162956247894711ec767994fc3be;
 0x2559fdf58d3c2200c83ed1fb4f1eed568c2248ca08e5794806d1841f3a08184c;
 0xe33c73626ab1ed741e47ac52be4e9f7f7913b5d81d7da1aafe203a49ecb983b;
 0x51d4123632497aa324257ae52a51e2fc1f9ba8901a925dc44c0dc6779ff5496;
 0x1fbabed28208178778241052b236f0bc7ae9893d247ca9cd05672e9aff613148;
 0x1c2f74139538bd253c3dd45a2ffb96173550a51cdbfe2a76827237fb85beec7d;
 0x157767e2a7fdf25c184755b2f47369f2ce924e5adaee5a3738d4f942bb0bf956;
 0xfdf1e7c86898044ddb397feb48e5ede9e3d24fba5420dba8d1ea6d10dbf47f7;
 0x769e84ed17e6c1eac40b5e00ccd2d820428101b2c84b588ee40a443ac9e08b0;
 0x2f2a0f50ded1e6ab34f60f8c56904a516dafc8153721b44f1b3561890c02e85c;
 0xb1dc04fe75dcb36de0bfe15ca2d5ad5bf2538aed1333df56e1b2d861928e2c4;
 0x17aed8d117c277ed0d1d888b35ec4bd3dc0b823b2af037d3623ea103a2078b24;
 0x153140aa66586cee231a8f3fd8605976e6d32ddf431ff33ee05b9f429c0c9481;
 0x2ae922e11ef4d41b7b84d52ab835f5bc8027bce9de25c1ce5b0bb88b6a17d1aa;
 0xf818243cc3faecb7c73dfc21c2968be63b7e9390bac077747bbbe167a055b55;
 0x1f62838a30bad6eed4ede2ab52866db5155137cce327a27f4b66e2204075000e;
 0x2fd97957b9460d3414008cae825bb610f018c5b53309ffd26f39ecf1e7f795b5;
 0x2692d11e64695e0d210374b482a47267cc00df2d1b90557227cd49fc37ec2b51;
 0xfcaa78988a35202687ff0dda691b035b4e9540a5308c96e25823d8787a5a040;
 0x1a742b2cce21c83d7943fe6b492a9b88faff3990e48866670f52a1db33d691cc;
 0x73a59e2c9c1aeb2a2bb89b1fb9b64fc42a1bfeff1d85b6e7a163b8c3bfa8203;
 0x4c604d77b356b485d215a9fdf7e5ec3f29648fc90a186c97e512140cfc5d966;
 0x1d380aad6383bd9f5c4b9fb4b127e0755d1198ea3a969efe5e3bcf12d167882a;
 0xcb07cbf2019493088e17d16ce9d14fc4204f670d6b8e2b1b501d1f1b3fd7951;
 0x166eb6ad5855dfd3c45e27df9154853d4b0874112c4489ff7aa0050e41fbba1b;
 0x372a3beb9db36031b7f0c72baf1e53e9c7220780b247aed82ee2079efadeedc;
 0x5bd655204d55cc6b6390bc1650301957a676f7d3d6017c6496ad031fd5f7b34;
 0x144179199dba135cc5f9e91b76880f342a4e74b8ee661c27d5b651f45656021b;
 0xe6fe8c96ce98f3cc97c11993b5087b55f3de70bed632730f92299b3c32ba1ca;
 0x7a2eb5886375517d399bfabe4c7ce5c03ede836c44ac2b51bb3e35aa9576d4e;
 0x764ec896ba7a374f5fd5a1cbed8a2be62bae0d572639e17bffad24590c3b89f;
 0x7ba9ec6781cb474fa4d622908f09a01767a0785c3a14ac5ba29328c4da5f4f2;
 0xc325b498965e3770243012dafa0dd4fb036a4013f2f67f350f3fc9e74049160;
 0x219dd3ca3c98d1613393838c73c88a6c6502ca23b3c85b5b8959a29691e34271;
 0xeb2b45fd518f54e1b0d4825026fffdd76489f6260380af40ddab5ffc1c5b33e;
 0x2305b8b5abffdc552cd96956ebfa456a36b35d200bd3e43ce165eb38711a67ea;
 0x1a7cb11ea9463f6390abb707987615cebe594cf232fb5e8914407a43ae57b982;
 0x1e67ce0524d1079208a94dc25483d9e6b7428d40c36305bbe0893e194a25b325;
 0xffc539a853778970432d8631bc0fdb0cf6020b4724b49ef031190dc4bb1120;
 0x29945c9ca4c39d45540c035c10678a3f2f51cadcbf19b332f75ce1f46b5978ad;
 0x19cb401323dbd3fd8be1da954c0291d6712487c687dd9664a4b167dc01804452;
 0x285fd86adb21908cc4441249fd005cb1add0b2abf706caff421927506619dc48;
 0x2faabfd09b63a81c1cf4dbfc64323d8c127ae552d00339b1dc4c59b1cc7ab4ee;
 0x2fc7539c406bce26fbe61517b9b8efd3617110c8cd4b2bb3b4a2b339e9857d4c;
 0x1296cd089d4750e55c1c01d768b5e8f21d2bc1fad76b842940f293ec0bc2ac95;
 0x21a0c3daaf57fdcf2e88ebd4d1d1a44eaa465a40cf60b07cc26549b577a1f228;
 0x1acf97f4cacc97d888e4e3b5ad02dd9a8ee511475e21e982fa1ce50467511ab7;
 0xb3556b9eef69e8447d1869d1286e0d15482112d23d0ebd7f8bbd61c435df612;
 0xb82cf5e2db8b88b32b37978b1176f2a64da2bea71894005f4acb1ce6a684b70;
 0x2c8ad1acc7636f65a12bf83ce68ac92abde9f451eca15051413f36bb565ae3e7;
 0x2fdcc46499cfb1102f554080793658228c92ae49ed7d814700ad1e13eb5bef89;
 0x2c8d7b9323fe30ec21eb7b8e0b88248fbdc70f047b5b9166e3dd8a60bd2a8d0c;
 0xd1ebf973c9d26a64362620e65b0ca9f59c9e971fc97506371af9489de93e918;
 0x1bdd929216a105b1351c6047b43c53d79866a0b653d0f4670233e9f59cd630db;
 0x162aba246750dcd856c975a9a473a7c921b625699202934b0a1d29ffd038fe97;
 0x2e681db0e74c3b6cc499a9afbe2229c8afde2932e4b15228679b540ff45e2eaa;
 0x2fcc235134792fb4a81da0c1ffd8084cb8cd8099293c3a129504808d3ee39bd1;
 0x1eb6661adbbb0a1774c6cf1637fa1e5e24399f6690a55416def3241ceece74a0;
 0x174045c72f6848838b2a08a7a011756097b0f3ed254cffab2926ce159e9f5627;
 0x2a0575f09f3282fa07e9b5cf5538993fc74c4ee8621c95fbb2ca2e5f2dc3a11;
 0x282f62aeb167ef5963da6c6faa8671123225ad91b227b886b6b981aefdaca0c6;
 0x1b9abbb81bcff5f1704632def6d989e50cfdbee1d249803238eac244351d7eb9;
 0x18f8a4669faf9cff11dd19f3d73c37748fb4626d18339c077a06e5c5c810badc;
 0x21af0de4ddfc449368db59be9e9241185c49c8496ee86d1175bdb7a431086a84;
 0xb9a1ec9fd21cb95dc93c0ac1911135b3a68d372ce6da9d455d80a780b15f8b7;
 0x1b413f709358008f44c3e60877d810a081d90844f367e3dd0a7bb9cc118dc502;
 0x24b4efb5028575888feb5b8b59d40e3498fffcea1f350826359bffb7fd4f31d2;
 0x2b11edef3505a9dad6000607ffcbdd02788c7b5802339be9cd74d2ba57620117;
 0x202279706096cd42f906239c40c6713e8bd89efd9f63741299dff53745dee8de;
 0x207ed9f7ff57bb17d278f833b61cf678f52c8e321cc6bce3af0804a7c159205e;
 0x5041c088d4e637431b2a49baa3772a9b0443f3161fe46515ae8d3ac0b0e551d;
 0x1b7c7bc15682259ad0881dccbce0a64a0259c59ea3c5e012f99534fc02374a;
 0x1ec19711623ebc49ef4d857325aa9dd7efb5fa3cd7ad50f3f44ccca99128c84e;
 0x6cb1be75179c19f889920ea93186dff923e2c214c50a145518837a2b01ca900;
 0x2712a82039769317c21b225a4e0ba45df63cafb4821303664d5b331d22218d83;
 0x1d7d0968738734d0710ae851377e340dbb101428d7200b731adf3b1c220f3b02;
 0x180502bae2da039d85f537212bade3edb56fb3b6a5567fab1e4061b86fa3e66d;
 0x1c3f1a329f00f6f7115a5fabbb73a67bdd74caceac0e5a4ccf25ae0373e9213a;
 0xb888038bf1e8afa2e444b9f47cebf28f42854d1a91608e39dbcda872bde960c;
 0x2a036e70e2987d85453ed7a3d9a68d574adf56eae1214dc774baa10658962c12;
 0x3f11abd551e44d9b6a0f4440f47006e98cd9001459c9672e6f96a92e5023d3c;
 0x1f0fa04bcd63b7a2bfdc870efbb36966f543e235c9dd5b371c5ea5c26aa7b9ce;
 0x154e2bbd796692b8942dc37abd9534c486ba70bc77be21e74c4e15381e1cb4c;
 0xa0525b3f96a7507890e7f65e7b593886d18cb1474f5db86501a4db1fba04b0a;
 0x4a473932e524fc0e604d5ee9cf3ba9ef8d5b463a1379fcd7d6af14dbdeb54dc;
 0x21150d11c7232f615628e7392f6a0c9348c70115a1a07b88736d04aeb85e0f8d;
 0xc71b12a8e8a7d8fd2b4ea9b587f1c7227be1c4e9740db36cf7c7c5e8f313087;
 0x2d94cdbe04f7f77c5af2d36c37bbb81729d951abfbd791fee0aa3a32321ac661;
 0x14e45c5e2b09d6d631cc60c59fb5c24b0a57041aac64b4a82db0b63600f5581a;
 0xabc5c5c8489780283c139c36dddfa39f88ee0601636ed3d6e4cc14bb3b1dff5;
 0xb937ba15135dbef736446fb4923206c8403a42a800c26e6284a93bb233d5c39;
 0x13869afcef8309bfd43752610031bd0d155f0f8d11bfe9a7154452e2bf084057;
 0x6d42cef5ae2ec34e497c596139ef1d504a0cda240f1762335f02dcd58c38395;
 0x1554308cc7124ccbdc04ffb1bb97fe1e8277b386f65ccf2c8b5614e343031a31;
 0x1e4fbc4c3e4f57e90ad50bc6e7a10b468fcf9a0a87a290c4873897e49791391c;
 0x8d2ca5bcf00e9769dfc868d1c86f288e40a31ca8396852f3977369af24d70b7;
 0x1f5bbebe4a188434ac69933fb8df5050ba89070879978fa4b7787bfae7f83b56;
 0x11a2dcf45d740445dd1e82ef88829813555acf76a219024ca7002501240a0e43;
 0x2a8a12e68b1fcba10e0a6d1a86c14a10d26e3c7416f36d62ce6217cf967e1c67;
 0x452848d3c0c00fe60d721380650c849ced2cf79d3044820812223e146647f35;
 0x2a47a54f59ff22745597acf600754759113ca7dbaf11d9c08f507c46a9aac9be;
 0x185bf57472562cca45f87ac1b1ae8122aec58cedb831281c51f3799f07e72b8d;
 0xecef6489e709ad5c587636b3bdd9c7b6e85742175ff86ebdfc53ab588d6d8d6;
 0x1608b3e2624ffc2c0091e47e90e5ac3c9962713c6a13683fd5531723cbb3889a;
 0xd3f60746bca57e5c968372ec0e987510a647f2e7d34415ba37989dafa94c60a;
 0x98ecf0484e127aa679523cad148ea227237a8d9ff9dd8d8f39fb58162c3bd61;
 0x302f10e11c13f3767223bc501a5f9dd130fe517b627f0248f789fb7b30ac105d;
 0x924717fe7babfe9541b3386fa40455a0177c69731baf22c0982cf76278899e2;
 0x17382965ba7be709d54d70ca3e13feca23b22b9e6e5a918a9f008f47cdbfa885;
 0x20d30010d977f9d912be79737775178aa841d972128aaa95eb7b27e160c2d2b1;
 0x594bdb78b3b69993449609386a251fa14ac536c37ed01608489ac1c721c0706;
 0x2ceec6c13c11bbd47664844320ccfdeee402e0af2ec8068796c7c3753330aff6;
 0x279fada83f830dfd97b7288e670459dc078c76cf0637a8983c0617f27b4b3472;
 0x29d593a3112c3bf57ec8ab687d8398fc276fcf1d462a6822892738533fb450e;
 0x7175181f0554da6ffea4a860c03124b8d50c3ae5b59a167e5847ba33d19c050;
 0x1280cb7bde9bac1c3d7f557f27a5acead6e4a77be5dc3e8221087e4a6ce23ead;
 0x1a994958d44c343f59489056b8cd725491ff551c0f449697b546c8dcfcb90bfc;
 0x1f004034e8810c1f1de507b7eed842983412ab8473e2b00fc75593eb4e3f5509;
 0x405fcc7b759b8ca30e9273814efb350c1e52542d338f24c47fd99a94207800a;
 0xb872545cb5ccc73d220bbbe01fe39940e7a8929b084602541230807dafb3c8b;
 0x2819facca2cd6cc16a6aea3191f833c2d3729d477c73835ea553be5873ce2730;
 0x22e725f6cecf165754ce1a52ffbaea774d8e485d66cba799723253b26b68c53f;
 0x1d122e4654861c4b3f76c3bc49529a8c573c7b0d4d3e79c48e3a4bfbd62cd1c;
 0x1ed4f564d147f3faa38336a0985022d537d34521b511c9360bdcd1b29f89a2f2;
 0x2fad9912c4caea5d440517f0e5688695a4d16b0e77b3dc3fd87f869c83e5b9dc;
 0x2b5a8561f0dc586d6e3bb83ed5ec3248ed0c09f9b30352471f2b0b80321deae1;
 0x186f4d63b014de8c9ea7ab01a79abe5b9be3808e6ca8344132f60f5595a33d57;
 0x1ae5e940fc5d1295d32457a840581c3b8bbda0115b66f7f7ca429824faee4d16;
 0x14afe0880ad92f816292a452cd011384632d64ea1839979d3d67d405af32778c;
 0x1ac869e754be8b071a3ee9c64af49096439b98f44b15a8c6f4f5ae8b75a3849d;
 0x2dc29a1a317499b43a5a4ba1b36cac1508f795bcc4431bfb0ea7028ef2fd32a9;
 0x2ee8d03afe43c2b88599f0a35b90926ae6510637e2733ac0f6946d908de51312;
 0x266d80fb5c10b2655e141777097040473cd5a4deda9225b8525c94836dd51eb9;
 0x2e4d66f6559483f76f1f55682d1edb56c8c3e14dafb6beb3a02390544e52c22d;
 0x10123aed5142580dc67408e337d4c773789d93e479e4fb44bd73218cf3db7500;
 0x19526f25b7ebe2c461395e66f866ffb80b2992d53883100f0dbfc67f132a5a91;
 0x2e77d96a8736e6c38fb67b935a55832b511a4ad8d86621f9bb313222dd37d656;
 0x9f2c6c969d48ec291576bbcd917fd622c2b98ec21bbfa2df5d57324ffbb4b18;
 0xdd360058171b02326c9e4c4618c8e194999d6c4480081fa738878c3e1b11e57;
 0x198a52b8282cad7eba3a3800b59a794a2c70949ed966c86ba29d9bcc37f29365;
 0x17eb8c8e8003d6b93783e67bd14d12a9455684cdea4ec58d76a83a07b428dc47;
 0x1fb9c160b09797e9d4eecc79c50e2658ec10d0f38ecefc1e3e8786b95fdf9626;
 0x202c3b6495a8af89ddc6e3fbf4d66d73e6dd13f8aab893174c0cafd78c8a510;
 0x114ba7f12c0e1a3b12c2b5291bd8141bd50dfc7000465084a701f47b15763083;
 0x19ad3e86ad82a3765aa64ea022d1117e1c230c02a6ac90037895728f82b3347;
 0x254ff8ec9eca4d3fb26c72cd63a7d4e989bb1b9eba0d8bfcf7713dabf7f64e01;
 0xbe8c9b5aee37efa93ee79b5ffc00e8b772742c601bf8f230252925ad2c9a702;
 0xc71775341a98ac909ba1f26ace40de8a56330931336abe715d2c1eb7d931ba2;
 0xb833ec8305c2cb5002b59beb9e58216a27ab69bbc7188e4302131e20fee9dee;
 0x174aee31c36b81a6212b9d446065af8800a60cca5eaa1b16fec85c2e2ff974e1;
 0x17831dd406c7785a5364d3939277da9eb5b6dff1e56fa35ff18506c64b2a8b95;
 0x121e1c1bdb7e4a3574bfd1c3a4cb3994ac4936ff54b07caa0a7ca53cc09dc445;
 0xfb2ca5d37066fd7292478917498f8788bee33d3ed4904525a4145bce35fff1b;
 0x1c131cf8a1d5440337fa13e595cf6d42c3016049ffac09957e69d0b4501e7ff4;
 0x70ee4b2f7a90add1355f9cdbc3a557f84aacc648634b0ff48f83de4f76a5856;
 0xac05c9b13d1f28281053b12af198776f3c9135d48f95d67c9314b2c48ee0dda;
 0xc95a176bf9b37e0eef92426ccfadd296954c0bca794929225cfdc4278961574;
 0x16635a13512870b72fa81e4648421a2210c0b29bfa1a3cc9f41470a91884445f;
 0xcdc33eb19f21017be8a4cf0b37b6b12f801ea5c4cdb77a34cf176ad85bfa6ed;
 0xe876459770109bd315fd932ea7c69c96cf314e3403d0f93fdb3afd64a150472;
 0x1f26a00bfd677bfe57b879c71cbc54ca913a4791d4b04e30437670966d840037;
 0x229a17692c8cf3377225426ce0cba5d61ed5f7dbb5a31dd603eadfa165bccf8d;
 0x21ae714094395df65267acb6549d580219c449bf86c33eb4f793e0747a6445fa;
 0x2afbdd235c79565be2f6e2cdb1d527bd569adffece0cb39fe08bc9d0ec2ea2d6;
 0xa95c11af3ef7a0c585ebd2068bdfab2a1329821a17baf65a6a0746b38a4ac56;
 0x2ed822401a485a621ee0b04f6f7b50adf796d225e3eaa587bcbf87c4ec0a19a9;
 0x10f52269c0c47e3d8a4c878ba77b098d1a7e913fcd58f8a1bcd4afb520ae01b5;
 0xbab4900dc219d1a737b11c61bde5da6af375d36401c121e8ffe8535dab67482;
 0xf0f8530f0310cb2f6c999ee2dc694329a957946b2c761c8505ececcb2ff2237;
 0x2015cb8f32acceab144d968136e87d67cc251752a9364b7759888eb1800a254a;
 0x660194d882e378a167b870ce7095e5ad119f66ff97465dcc929cb02aeb602d6;
 0x312bad9275ac67f2bb34610bfdf3c6989e89ef18bfeb3a5af5a3deadabde0e8;
 0x5cbc68e5b05a1fc3e784569ef325011f839dad380e8e07742dc0af514804938;
 0x23e6688ad84690b2fcc1d166fa6721105d36966ce9a384a0f659ab02a7bbe01d;
 0x26201713078d367d68a33ce6ebb82ab55b6c116e534c85043fe458cf4d1f9120;
 0x2ad17744e079b70e3175ef0cc86ebd7238cccd281148038498c47c733baef3f0;
 0x227b2456b2df3801ed64047464250e81b3bc1d20f3fb79fef34d38faa39773;
 0x1936c25ab78e54a947a7452dd65c04739f52df324cb481eb9a13067364a0fdd0;
 0x2aa9d353b8afaebffabba8ed09220a8121ef8cd61ad2c20cca4fe8d5d65772da;
 0x2c37de8445ceb0e6e16551a08251fd477a57c36d493708f8f1503346e224ec73;
 0xb6016b413068fd8119603ac0ae0afdf94284916ab9582732584857312fc6228;
 0x1c2da4c3fcb0215aef82e75f67b62db57f7e261792fb69195382b8ab565b2814;
 0xd9019e067b8a2dd481299ac904a14cb516ac0ddaa177839581770a27616041e;
 0xadd8f2e12999625d665e7ec804c259862b99766997a2754498f1c10c708f516;
 0x1b04c94fba0160faf1a69ae28901f6e58f265137c4e6eaff003dc34cc06ae9a2;
 0x19b58c38a368d1bfb49de8aab145368123817e15d06bf1d887ca21feee481b82;
 0x268512a6191579be4c51cc8bb8b9dcacd4663f69e60f295ed750430f6f7fd7d1;
 0x13d268b42c3385b68c54f2bcb9f72457d7ed9138fedfc85181a048972d34e1b4;
 0x2cb0a99448e388e04f5de4c9cba52f97b9c4b7c7486df3236c8f92e16200941f;
 0x1f0101328d89d8c934d72ca36c83de0f0c9eee06ca36c551d8fbeea255cd18ce;
 0x14262fa1b33f7ae3d7666719900f64a1387103ed4b3e1d995fdced66760720bc;
 0x1364121b3d6d64c4ccdb10584b4bc6b0f747bbb66f30d764d0e60a796d30a5e;
 0x2ffda5ed3ea18847ecd8fbbb951e83628462e15c24637a6a5fc443cc6445032b;
 0x1b6a9f9c7c09354bb8f206f9fe4a9ca8e95c6e41b2df2945d2efeded3199efc3;
 0x2954182782b8a9c2aaae675e5d8c81a38dc9d2ea6462f5e86d081770bebfd2aa;
 0xcad57ec1b88059bda6d41d957f17178beb8a932a29b6162675a6fee7dae1574;
 0x29d6f606caf5aad785e9677fbaa1f8715b130e908aa7a5d6d88e08b3b8716492;
 0x303a687f559ed6e770c9a84115ae726643fa16f4a9ec5c240f8981699f2f8c7b;
 0x2318a5a800de467ac7406848d22ba7e2f2ade1fe67df255cd62a27cdad188086;
 0x228ea9efaf3b18701d3aebf00c7432d13a6760e73767cba67dbfeac461d0a8a8;
 0x2ed4c42bf04aeb7873c2fa14d564658533553d0cc8357cfd2c4dcf543b229be4;
 0x1dafc53a1dee87dc061e12435c932ae1f4d4f6cce57d8e4f030eb7c0ed347b86;
 0x181f880921711f6128e2dfab54440c2087ad7d0235beca496dc61aeae235db3a;
 0x143fbacc8b948ff561d61cff210e8af82a0a500852d84ae29d8410e4d2dc7e1c;
 0x6c4e0679e8b4d1b8249e09bae2238b91616a42094c69be83939570a4751e093;
 0x14f7cda89bbbcd7cdd778ff878c8df66e2997ced3fed3091fa0b259c743347cd;
 0x21b40bdb3db178afb97e6c8f509a3a54e4970c702a3c96e2a680a3bd9cd1159e;
 0x2233afa3456f472cdfe3f610d0612f0d74ad9842d0ad08b826916d3a3b43bac;
 0x195838cd762c2a0ac237c6bb111d274bf80900ff6b4956680bde41adfc90110d;
 0x982b8802216422f46f29c0985967102048b43b53e3c8d1e558b2ce81627f0d2;
 0x11cbc741c1bf48f7080f491c26d116766a8bc51d9cfb6cd08163e569e5f546d;
 0x4c26770bfd30be7f086c9c707f29e38a22ab6541fdd5d9491d613d3fc36d64a;
 0x21da2bd83ee80170d4cb123e322f86c4aa2f2ebf85cb97bb19e8d7340ccfa556;
 0x1380aa59b03b58c68d377f62ee0b3bdc06c1b2df0c68d503f8b0a95c17239ba3;
 0x21309cec6120b32041475ba9bacb7aa507578fc7d428bb010fc06f0ea36d0762;
 0x8792ccf88cf6e450d137ed7b5496295f3f9cd6376454346fae4717f7980e554;
 0xaef0f9086c9e942432200e8b59555695a4f531e319fd0d57f1881a55e3a037e;
 0xe0b748d5856936b3fd8f2eb1eb4c2cd2b8b8be4d6318a82cad3e0bac505766f;
 0x172fad32593c374ceef1a42abbd708565d3591e8032c517e4595f3064155ae8e;
 0x26f5f9ce4d72145d3e72c42c974ffdfc89a48c511bd760b3d9db03b9b105c4b8;
 0x10e053336934904ff6d7b672a3bd2ca58728e5149a9582a72c1c309efcf7a407;
 0x1f01a98934ddde51f300d542d1fad8fff4117471cab015d4146b05f1deb04116;
 0x87cd7a95fdf5fb9d7f0431a0466625cdb42dc6237fffe77f5ba14c6dfa1b393;
 0x1f9ae8ef71dbcd0d48a124bd265d37cc0c1018ca0b45e7b43796b045f65a7a55;
 0x1571a2b0a25158c0c5d297a397715b00bd1c5435d2686c31618d4128c538f0c8;
 0x2322fdf2761e45f7cf265e4d6272519626de08bbf5e71af17069df29497a5838;
 0x2ca8980f9fdcdb1b35022e02f6be62f19355ca4b9eac9b2fdcc37df2ed0264f9;
 0x1a8881c334f39420d4672c5050f45d9281424eb61545782a6c17040dc7d38048;
 0x1f319a0dc0f9b7429e3ee9bed57a96a0f2f67cb5fcd92b1c9cdc97a15f7761bf;
 0x2419336f26dc5d498f279af95b4d7d1211137c608eed29b5c9510695e1a467c6;
 0x1f514d22f672cbb16363befa56678778209bd257ca117b5141b29e06e4bd5798;
 0x28034a6c901cec4c56675311def10fbcd8088f2f68f795d3b35519bb1fbf1a1d;
 0x26c2b92118cd2704063241fb919806a0fef9814c87b071d5a11efc2cb1103cf2;
 0x3d539ea2ddcb358763861791cc434d1eefe731ad3262eda857c56a06d9cf8df;
 0x2206f49436409e8be8f542926d9e299121b43210e71dd7970fb4283337d241c7;
 0xdf25598607771039fef577a6f6dbb610ceeaf204eaac7a09b96ad22de683467;
 0x283a898de5a21465cca3213af584b7f56413a9e84b524431436d0b136695664e;
 0x26ab264e89611039dc9cfd4b216df44709b54f2418df66545c30cb93814e446a;
 0x2210d7f2ef43e229c5631d4e701ef89ffdf1aca64351791e0fe7eed428493c8e;
 0x7da0affb47d64b7edc682dabe5c6db224743b5a385d04a2474d52ffe8abfd09;
 0x2ad8280ae5cf82936069f72e49010f8d1643cdc299f12ac096fd44c501ff9af;
 0x267b89f84f4845e3924565fcf1a54e8a3257fe8aeef515f86cc1c0056f46f6aa;
 0x2d46f5c35e5a81cd902f418b4b93f25abf802d32d52da054a5edeee276148caa;
 0x20ae8e71570f8ae5e655eb42a4f274650226af1fe160a96b177854d736f2bd2a;
 0x20b9b29a5644790a5a31aa0a724fb578f3650590ddd164ce5af593f43c798f4;
 0x1390c1d95991972b3b8efa1a367383ab97f4714396635e8791395937010ef0a2;
 0x4973b4363f1f55da12d4eab985012d32bd80bc0adb90216aed9574da9e97c58;
 0x25f7a653fc5aadc4af0fe534953bc88307a20e941d7c686bc53bbe324d184cd3;
 0x124d7810821f47782fe6bf64a7c5eacf03d559776a25e2f69de28362be180bc9;
 0x2f6f04909dc360d1add503953c11648f726eb0f612f703ac1e378603d33309a8;
 0x13c2cf1b21b786238faa93bfbff5c0921899ef1ab29548828a375e4bc00a1b52;
 0x84c200f10eff59bf43cf3cc3a506de500ed68e59bce5cddf1137ec7d61a4ea4;
 0x53b5ad5902dfb5ca36d76b2f980906b14ebdc4721546a1f5f1e9741644f2913;
 0x23bd4498b4c0c9f248822f15b5c88bc7a78d528d3bd3e3d3b27af6033afe1262;
 0x2b5ff61b0e1fe18cd84e352c417ab5b836683f28df1c16e28c08bc4fd269a99e;
 0x28f774b7936bc5095e77eb655005ab8767aad076c098b8fbba8521f18a2485b4;
 0xc7f6d2ead683772565984ac819dc2c8326cc4d3b18f6339125621262128c845;
 0x1e03532e35111565173f76b67ee9c713953757037b272b369b14bb5d22ab6433;
 0x1cdae1682f2c10e440de32eb51726d9db76d07b6429675bfad7e778cc0bee076;
 0x24de40666f59de97deeff6d34c873b7c2498f022b856c551fb4ba6fe033e4e1a;
 0xfdd0166d15c0f4266ed7296dba4b639040ceaa6910683ee44d37b08679f4825;
 0x318ee2254c3888ce4534d9090448b7a862afbdffbd4470dab55c9fa24f50a85;
 0x7a8d19a1979c8fa3401bfe964ed5d3f3eef19d7e4d0ba007f3854b4904c5f37;
 0x2846f15a121456f0f74b5072112a90ecc56a48d98a7a07f30eb553424a00b27a;
 0x1295ad2de68e05b113031de854959d9858facf448ca101405407aafc1fe50496;
 0x2745210ecc2533017a43305fcd13078d69443d0dda35be2ea50fc485ff8f1c88;
 0xdc27f0b35fec0e0ff8cbe131c7ee42a228d889cb8254c4900cb56ea784919b2;
 0x9780925cdb1429cc17c1e70b0b43755e2e70602994e975d34c3fc31cac19839;
 0x2ef89ecae1006a20f739aa4da6987bb866d6993fa89e4a2fbccbb9ce28ed58ad;
 0xf6feab3215156ac3f878ce67c5953dbc4e5ab3d131ee958275326ff94d29a54;
 0x2049c1bcb035cb59a2350bcecc2a62f4fdb658108f059bc38c14098571a87d22;
 0x9c5298f6696836b2a6544c9ca1c0f6448e0e6e4e0d4a8c3aa7e635aed20da45;
 0x1d48ec8d786be28f71bd71994da04f787dc4b7792fe258255af742b348e4ea64;
 0x766ba3f360f9cb8d27593cee1d890f57350c235096d9d05633992d477ef2567;
 0x18893956ce600734714ccfebc44f67036f51c652822bc0c23797d73a93d47493;
 0x3ac5e6a3c0373c58379bf38c87165d716aca05e14ce4729ec91496dc74a1de;
 0x171f4b3d04a6eaf7db0b86db0ba5be7d4451b4ea0a1333bfaa31be8f50da12aa;
 0x181955a3fed4ff19d90d947c2f157f050db34c847f59f5f63ac6c03b55383aa0;
 0x15e503ae66cd37b3a58ac65549aa1de59228f5e5aadea7035169b9801e58a800;
 0xfeeb8aec6c963774b27f86a55b4594d54b4b30955e358490ea169738f9e6169;
 0xdd9531f7a34f1a001d4ebc74cb4ea4772b95519325d2989fc933035c68ad37d;
 0x219fb59ac221747972bce66f78ca33c9bae38305e11ab3481aebdb9ddb4b2cb8;
 0x1fd60dc0c476def3b624c219b3055373d73213dd925e940bf55ced88231ce09f;
 0x1f8d07ef3e16cbeba789241956211cfa595452801f08c876c2525dc504c520b9;
 0x515741548eba397d14e6269b32566615d09447155bab001ac6ee205698f16ec;
 0x2530b37d2dd1b6166039f29fb1d78e90e9034cb6e9b653fe7428d768f8e9b2d5;
 0x1602e869d50b280951eccb3ce71715628980d648390e89aff50e55a1bbcad4b5;
 0x233887217af672bbacd873f1285a3612796b0cbf7890463ede54882fc774cc7e;
 0x1849b3aa9e7053c8e95252858980abe8f1642ec66804753f02ff63f0ff21d648;
 0x1a0049780885e0827447af9ba9eb9e658ffd62acbac998f6c1a80dde5aedc1a3;
 0x1ca9cbfa808ca9c85559425af31c0aec3e5934b6ab51a2ea2549fbc2e7562913;
 0x28a2a0f0622c2a8e4f16f2e0365b72b481312d8d5087e2e58ae89b34b8cc93a1;
 0x21d1beed10bff96ca9f615bded99674a7331a52fb3566953e6ddf9eca280153e;
 0x187114f2bbba9a993297bd740c2735ef01b85abbdb5b47c41ce6ecf2fc7edbe3;
 0x11d0a386775c6e670a360a6fd957c403b434ba13f72cedc39d1408bfa73fc06c;
 0xff4ef2f46abef24ca15d8b389e02cd3944d1296131b6d2dce954dd11d724f65;
 0x20338e47b520d281448f3f8bf008aa743f74c5b63f98a630a00108464bb28925;
 0x256fa0fef5853dc10aefa865c5653169397d545f07584eae65e1b3e50fb6a616;
 0x144ba3619d5fc9d84f0632df296e8dea5017329573661b69880c38ca45ae3189;
 0x298498c8df31dd315380b3651fe9c7ed5aaf4a4950a66134bc8b6029472a3564;
 0x18caf9e264a32dbca23da51a3514fba92fb62f78ecc2d844557355ec8a43b0c1;
 0x194c812828f1cdbf0c4f0b0486afb4c5d96ccc218b3b90d04bc5f1c8665ff641;
 0x23f93e1c44119ba856a10380c2333191b3105f502a61eabdd8b1abc803c04ae2;
 0x25d2cc988e47ce70fa99cf18105000d3046717d839af547edc3de931969ac006;
 0x1d1083600023cccdc7daeebeb19783aacc6e94226d00c7ca44dafd755614a80e;
 0x1943a9ef811abfe657fff92504f2a8914f09dfdd5b979911047bee4b698004cf;
 0x1f96db1392a3ae5cbfee4c1863f0bddfd95a652993c8f17ce18869c261bc6c7;
 0x12d4814ebb315331d4fba9dfc2ef909cd77b1e7126c9e6258a3c9821d663d778;
 0x27a2ad69b9eb5697b85b431eba85dbb19843f3c7518121aa49515a65ee552e30;
 0x66f7f2981ecc4c4415da62eabd3230424abfed3567121f656e8191a78c5ddf0;
 0x16e298f60b265f06f8ec9227e54e8bbcf2b4823921deb44f063c92430fc40a12;
 0x1c10ab39cb04ce02ba72d996049ad688961f60f8d9821d1716c5a6a2fe0a9734;
 0x2cd7c8a78dd99aedc18c8d47452b4d5b2e9c5b2128eb373b820ca8beec970a73;
 0x23391ac9f29c1a99ed6fbd9bbfbe72b488569bf9a207addbd4e30a3a8b97311f;
 0x3041c5599a51eda33a6398eb31232519797b00726702a98a319c7ccba9fed2f2;
 0x4e64908d79f35ed77fa8196f07a948c848512b534d9bf4f30ef093c797403ae;
 0x19251e907d7a903bfa7bed87eb04bd921dc19062e4ec3abc9e82b7fa4e25be6f;
 0x1b39681c2c125cae8d38cc5ef6fac252f4f82374fd5b9059614ecc134f2b29d5;
 0x217a54dd68dcd53e336cea49d89925fd128fee65bdca131659d324ae636696b0;
 0x2c054bf6f91776020de3fb9705ba29e0df17d7e1afe61e11eda8caf78762af3c;
 0x1f88611d6c0287ce53543d87ed8182ba475f6e223989eda35d1ab746275fa4e9;
 0x204d5a9829d570e203bde491b862a96979d71e480ebffbb13c4cb3af566371cf;
 0xeac95c688afaa773ace4856252788170baba69a6181071d1d1a4e0dd320b4b5;
 0x2245a0967d777ac5160082563d5815b44ed0ff9e4305c65c503e0ffebae5dd2f;
 0x1b732905466ad921ab2430cbdf772a816d1ced4dea6818dc3cedfc67ffe5ffbe;
 0x8caf1a4cd826d19e1c27f970cad05b2d49931bae369b82c30011041879f2894;
 0x27d8134423cd987b249f4bedc7773fb7b7314e8c83d9727f3a21d0f162c561cd;
 0x9a2ea37b3d739dcd70862ce62a8837dd267c22a29eb050ef246edd84f48f9fa;
 0x1adcfb436b238f7461757a9665d2dccfea1c7352c59e5aeaa8ed24b8530bdfb6;
 0x2a2354db535feba0800ad6659761f29aab31c142716e16779583c17d3cbcd700;
 0x1031b876fc704c3296bb38110b87476f88f5721a1132ba71ba0dc4168719a6d;
 0xb85e9fb664cc3b4ee539936f885885ae543c606fda007aed20257c8e4ee3597;
 0x18067bd085c60da630ab24cdf419afda09778912d5c76ebfd9df7ecff6207186;
 0x3771dbe5c3340fd289917d6fac9a154b6d55d63557af13d9bea711aafc5e1db;
 0x3a120381b15967cde1a33939fca7830caa1af1fbad6d6cbd4623592101f1f77;
 0x40324fbad7390bd98c3553232cea681d4b18be857931218fbbd1d394d67f781;
 0x294a9378accf723c26266df89bff1a2bdb710f198de168890dfd73acf786cd98;
 0x203d8640466332ce0c493396731a23b85f77cdd95880c457dd9cd46e99bf0f25;
 0xd339481cf52ab1f652ec8967a89776e92b6aa12056794c9dc856fc27ec91ef8;
 0x158be4217747076a28aa6f617c7ecc6045c8ce5c484aada197994b618b37cba0;
 0x2daa17b35ac2ea21eda36bb06db40a7fa81fe60cda556d73121dbf17c8a05ebd;
 0x1a2f7903bd643c61cc5eb68455202f6613c9c03bc3c59a8cd7f8d10b0c779210;
 0x1ca7835f4f1c5f35aa1e0054afb114769a82474b2f9f771227f022fa762ba56a;
 0x43ab3c95b64cefa7f97e1e8abf9db25d64c2213bf44b01b0005fee067804beb;
 0xeed1694086cdd6dd84002c69365120cc2318283226eb7dbd9c1154e5be774a2;
 0x31b726aa5dda456ffac29cd38b64926be57a1b6c1fc593a50e7e9cd384f7ef3;
 0x2652cfbf90110f7727750d68eeab7a49385886953f75832be375c37ea9ad6750;
 0x24a58d087af381a6f27b0655de795b6a7be734f05a4f4edef0572279a28a3bd8;
 0x1b04d3e92a338f6beeb8091382d93141b3bb3d033294413a398da24464272a42;
 0x290b9ee02a3a29eda94ce08a6752191c3c296cc2c044edbbe091172360b24c1f;
 0x2a012d2f441545c914d25d0cd28fa8104cda2a080845c79cc7d0f39146b0b358;
 0x1d4e5bc180cedcb8ef0a59d25498a542e324cf0f7128f707c433eac1eded47f;
 0x54659f012ec8b757b1d2a175a9fa643e963238c342264ae9fc39a69d75462a8;
 0x19fc0305e1e5b2afcb86a742152ba895ab024ac59c7b57e535224ffb807dc720;
 0x21d1fd0c2affce674ab016661a216f0615b5bb1f3fc3985e9d74dd71ea86ad66;
 0x26956d93f01776d23bc7f1e3464992581adddb48176bcbb03efa853ab09c3b17;
 0x2403120e5a687895bcbe57b5b11fba0d963eb0c863d8aab74112f512ed8ad9e2;
 0x26684fa9b9548b08ac79e7a14bc28f8d47650312f0629a40bbccdb590a298cf3;
 0x216969c221bdc3daa1c2adb9be456ca19fcb948de9725fc597ac626968715c18;
 0x6d4e54362d5dc7cd489ef466713c1b8a703876062ed0366a475ae9ac0776c0d;
 0x10c21ebf642d38aaf3de15ac4a0de3b71ab9788b5904a78326ef099a1eb953fa;
 0xa4b8e91b02da94aa621acff16bbdd44f079d29b2034a9e1dd8be270e7e3a803;
 0x2b1a5b52b5f1c739f8e167a8561b7c5a567fd449b61e4aaa2965f3177badf7bf;
 0x1e858a1edb097f168f10b9130e51d5a4f3b55da7fad6896298f14bb7af4e6356;
 0x28362c3ff6abe4fb017450c7dd344bd4e08100afe5a09cb01877265967aafcd3;
 0x204e017d42e6b32cff2091368e344201440854761a0cd463766041d7e38dcd44;
 0x182307aa6e06bf1b20cbe534913a0b561e310316e23540f35f1bc9ee437e92aa;
 0x1ee400aed2b9f1ed67a8116438ccb7bdb8d179868c1fd6a6dd9497744ef9ba9d;
 0x288590acd331f4499efc2e7e8aa2656e64cbf0a68c7d928c2220db643db9d410;
 0x8634f649b3d25022a2125f5f300d2cce2cbe122df4f1c51296e6b65fff1795;
 0x3c462cfcb45169d9cead1d0715c8cecffec77ea449a20882aeafa4aee274e6a;
 0x18fd54d4986a2e7804cbcb77e6812c06e7b8e28ca51ae323e56d9094782a30cd;
 0x1b9efe04a809a43c624c726e9294bdcd3bd1e97cbded742e2173d3fe9e429fe;
 0x109ca591b9350c71a7f2886c6e55628b38206223a57c07b2a4490771c921e2ea;
 0xf98134e9077529768e4ec3dce4b62ca6baf8199d78c7e35f451912a80fb1bfa;
 0x2205834ab1c8a66de1bc766adee18eaf689a52beae8659ad4d0b437bec229526;
 0x292a6caba071b9fd8fb5f0e46dde4d711bb4a118ad0c67e77a7637544bc6c21d;
 0xf218ac63a89d96ea37d62ea0387c145df2f14957bcf5c7b5b2cb9317a871740;
 0x21393e5f2e1121136a25f071465cb85b02b2fe124a8e4ea83181891a710b0a50;
 0x6e22d6946484dad3f4ad0da41be11da2aa5451fc7f4cf6cc5898278a6747bb9;
 0x1ec8117c5590074a29a019140efd1c627b715fc464f1d7ac9d47f0979a4c59c7;
 0xe6f5d2ef82945dfb392e447138bc94c32bddb72483055a0563444a0e4f6dd70;
 0x169abfcb3ee96d7e02f9711eadc0a9e24a47a2f9fb1121cf8c6dacd91a5b32ca;
 0x2d1dcd8258d2c559535ec62861788dea60dd42d7fee0cccd20a6ae4214d21990;
 0x1f8a46cec465bba964496d25caf9a351be7d09a628ff97eac4fceed7bfed5c45;
 0xddae5753015e7c1f3b07dae4be7747398c9b98667aa13f80f768a2204620b28;
 0x1d961204697279203f4721dd0858244f2cc64c5cbf1a4bf1077a042ebf11af81;
 0x2611bbf19addb97f4b761abca43999a4b98d758bc74ed3719bf65b172635abbd;
 0x2c93c5c5b057f52c0b3d54338659f05d1566d028c1816bfbfcf9003593b98190;
 0x2a926fd3e066a9fb75f76fd02aa9996999a090450d11ee1a87a1e0e65cd287f8;
 0x211dcee0fee3f8571fd96f2b5c55de1139807fa69fbe79216563f6c5709f72e4;
 0x2b7ddc28b2bc2d2718e9d6b4c790d55834b77906de2d4ce8b301ac35d33bd761;
 0x17ba5159321a180ddefe96bc9d0f9ab7f44bf2e55174b6a09029b9e3fd83e0dc;
 0x25e12b63262139695e50a1e96b6480353a6dd6a1bb980c20f91fd59e518a030e;
 0x95eca3482e28057b54118da6c45a3f0f5ae53d67becc4fb0ca2e96e241016b0;
 0x1112aeb9622bd2e00306dfa76088ba87e8d9cfeb83d756b40acb4454e77e3ab4;
 0x1b69507de83452ce3977a83e01648114afc0f41974a6ba962f77da7ee03b2353;
 0x18c36a227f30ba8be835022cda0891d51b2049dcecb5261c0244336342681283;
 0x32dff6502adbf3eae1edb0aa2a142c2387216dd501acaa18a3565112c3cef30;
 0x67e9b2df10e463ff4e65fa21d18b8e7b5c55d217941207850d984c264ea64b9;
 0x186a8c1ddfd9fb6731243a6c190d74c258076254fc4d851bb67c15c855da68c9;
 0x25f12e0904af730ec68920122e8d7e83e6db7e0d3818d82ab3f5179652acf1a4;
 0x292a053be9013f374156454727329ca30c50781b7f68371eb082974914cc2f8a;
 0x12867bb541ea17c532cde157ebe2ff6f0a3d3e83b956e619951cc99af22e3d7b;
 0x9dd2a75726a265e98ab42ca0d013e7ba2e15b26100516e0eab737fb70049b56;
 0x137cfd0054dbae6b635b4e4f9e6175226e5c95c45e5b2541334f94dfd93b220f;
 0xd14636d7b7afd1186f0b9d5c8f8ef551beac7bb2d36b25436f04bf7dcb60de7;
 0x1dbc81002d8a5cae1fd910532f08a4323c35781c2b901bd722babe0a5f6dc613;
 0x241057b0d9977eaa50e04ba893702ba182cdb3388cc632907f4c2081834d8da5;
 0x7ca75c9d51c65bfc2ca99c9c773bca2bad7b498370b5d50e275a88cb6b06339;
 0x15fab6f34ae8d22bdedd760610dd463d881cef8ce82fe4a0c0f860502f6d3cc5;
 0xcf846e67ab815b7bfb255008733f8b45d83938e6eb0dbd19e6d537eaa581e00].
(* poseidon_bn128_constants.rs:11404-11544 *)
Definition bn_m11 : list (list Z) := [[0x26dba58ade8cda188f49e52fce7167b8f219dbd924d7786b0f98fb799fefa2e;
 0x11a131a3778c3774233bc54096419d463d3abbae18322a7e77a511881665f93;
 0x2a18ab4dc4777e13cb8358c1c423153570d1cb909544243abdacd4547c8ec3aa;
 0x16ebd782cbcf6d63c38b87b27db2a4a5af5847a9a60889c4cf6aa318d6866b1e;
 0x2b7ed47fac275d34f842f09b01ef9421014de040c26a591595b227ba7bc6fb2;
 0xc5e49e319fb9535073f07f9e055accaf3e3f24a35dcb46cab67dfc648efaf30;
 0x161e4ae5b2d24cd638ba5c32bc2317bf90d404e37e003f1055d9a96e406d30d;
 0x223c7fc6d24fc53d1b428edb8f1c52d20ceec592187d2c7a6b0b147b6292b81e;
 0x1ae060e39b338d09845e2e9ebeb70bfb74cd4af926217f5732be2b6cb7fe72a6;
 0x46191ab41e93929ea51f190fd4e773ac8d5083328d4b2f04828dca3e69098c3;
 0x14ba1b5383e3733c63d00c32c2bbffd8e54507ed33bf7544c86388191eca3e40];
 [0x9813c803ff84a3694eedaf4b1c2172615275dc18ca654c799a70440946ccf0;
 0x1495af03dc9180c886f0e1bdaf9d18e32e6b0d1b80370e7cbe5745dafc433523;
 0xd95e8cf8a66b56c32e7d11e0107e41e1297122d1acc41332f1b49895a3c97fc;
 0xb05f16108c4616a973b01d82e50d4fc9dcdcce67d2d21f852816bd234e9872b;
 0x230b62315b30bc49d73dff8a9de79c620e03c747b14c432f170715e588d605aa;
 0x15d217a31784741048f326e155af96e90b5aae734f06779e698864039c92e123;
 0xaf9afbecae1761cc17d44b51ca66d1dbdeaf341e85f1082958f9cb72f7b55d4;
 0x1da4f4e3c6790ae1b89c4118861d8ca2a50cc82a4e7f1ed3c5ba8cb944ba4689;
 0x2860aa52dc2f967c0c1a0b942ac81e02189d031430c11a919a5aa895bcfb6151;
 0x16ff33d67c85121bcee7d81cff1618927f1c92b4d1d21c2a07b6ae18b2b7b9b7;
 0x1ba0e835f47626b0d82426900c49170a8be29c39d90337aa5fc10764e2321a1b];
 [0x202973f7fba5bd21ed58bfe7156d7b29010d41090f63f1bb290c1d5da1ad60;
 0x119344c53707f00243983c6d024fd49a0f8af80e5871933e58ff87c3a1f48b93;
 0x7c22f96f2f55653d04edc63150567a7a04609b0b79eecfacb1485dceb7bc873;
 0x2f394cfd3e442503c3a22512aa4b76b95b743c7076ca4115a9fbbb7c6b07ee5d;
 0x206351750037bdc90d4f3e7918619fc690c2b5857f8bfbd86d7c001e4cf2ca18;
 0x1accea09c2bfd17f4061725c712fd1976a07e773e54d906da166215201a58136;
 0x5e52c0ff8c04a8e5e3c7eafa1d0902fe63e35898934b00f4333b38fe614f913;
 0x2e708baaf894bc5835e5fea81227fa8cfaef99086d12b0a3a7f3f85bbca61d28;
 0xac23f00ff015baab1c8be9a90943c3c72d17818be7ad427c45eb3ff1828727d;
 0x2134798f4ca7fb9928012c937f37de87432b8665aeedf373e7ffa6fe0c13d00;
 0x219f5e28a5fa52689d2b7be432624280c940c9bf9883c1fb0fe929f78873c1b];
 [0x12305eadf64dac24a7913a62d95aefd45f48355576c671e56fde9cc7c8344ffd;
 0xa92bd6a919d1605615786f2efe80743ca57c10ec80cfb926722b5bed408b79;
 0xf716c54de41920c401a62df8f9186e19b9523e98637a5b113d61ccc30ba0213;
 0xa157e244f939125d57f9c8e66f7d88ec0fb3c05b90f526bac0871bca84677f5;
 0x2218be861d524eaf03b9420b1368e9c5aa7cefee72d0e6ef80732ee9d7e6e2c0;
 0x2f9bd19d0c8c3887a7fc0173f863f075e66b183ad89f13704930416e1d5cb7ec;
 0x14eb401c1084a9ddcd5d0092e5d1a299aa0f55c351545c781703c01ce87d6b29;
 0x13fe23be24261ba5b92d363989f58e17fceed4a858d1c61fc2cf2b71dbdb6936;
 0x32fa2f166622f057f61a9405c9256223cab2ba82c9495607921755ab018f690;
 0x2aeddbfa245756ad1e1658629f747b8da7593b195cc950324f95edc9eda42aaf;
 0x123a6055681023b16570c70fcdf3ae8e387a973690b9e6761be22f9941d7ef76];
 [0x25c783ad66d6a1fc6c84770bd637f6207097dffb0378d7e0395f8c0b86b505f9;
 0x1c7d3a92caa435cdd974520bb6fb6cac81634cc9bf4e534df77736e06d768c3c;
 0x2cd68fc31b67dc45fb6b16f42b5eb89dba2ae7e9aa50c5f1915275a81887190a;
 0x1d4567c12db648d4a9c41324c0329325b76a07730fad72ef9e490a748674985c;
 0x69ee4eb20b4860d4af91afe1781338f53aa354562ecd873e0e625af70746f26;
 0x6cad0c2bd438c4dba2ed64bbf75066e731484c36d1f6738b6e98601e9fb498d;
 0x1e0e166d734aa614c6b53db4f691179841a33f8105430a3ee70abca83ba6ec6e;
 0x1c879c9428e19607d647f5ef1415e76f7c59fd01e52afb80486081851f9a5284;
 0x215c0cd4e3f1bdb482b93e571879d7931be90023d7a220e8f93b21c8add41ffa;
 0x1f41fc67ca1322b37b7aa01b631fd19105281f6c6a4d37fbf68fc1b5f62802c6;
 0x1dce36062af7e4b0098f5590622ced7af9f28e88d476cde1391eb30408d5d266];
 [0x222deb606f13cf28c73a67216d88b16f5958d5d292ba10ef3bc2c10f5a0b613f;
 0x12fb88a0f6f749d68da9250d5adecf088442827248d67f989fd14b5c9cd4d4c7;
 0x66292e64e6a2c64673aed365cb50f7bd4e1d3b5270f6b2e9982590c3f8400e;
 0xa94a2d7c4093c638823b095733f37176d7e747ba24645b515ac2a241ffdda81;
 0xa226128da1d9bd5b329f55f52c75682def3369ab13359dcb7d212eefca86229;
 0x1b5da83966361586e8810fed032435caa80a9b476db21290474ed1977fcef22f;
 0x2fa75deed281db734faba5b70eaf57962f93e2eea1d3dcee34c81ab1e9fcc0ee;
 0x128cb3150b15cbc4faab14bf7d676ef3682b52cabfc8d3419dfd98109d19ecc0;
 0x52700b19ef6d42ea392e044a094cbfc308eea1f72f2a3428b1e721bfc32c6ad;
 0x22d1e64d4ee15e60c459d851ef9f3495e937f5a90990382c97867c45b7940071;
 0x252e74746677fd7584ceb0f8aa6936bd04f9528ef600737e9913fe4b5698eb28];
 [0x1614d025472771fd870a9e9d422b3571c5494e7d679824d8fe1212177d5fa2ec;
 0x2f6c4e097bb5851be12bbe2c712c2fa906f310b78048d695b4aad301ffc0d268;
 0x8a1ef65f52128eb3b22df2b6aca30509b0af8af2f7888eee766c0c24871188b;
 0x2f6f14502f20d958a9ff23b696cac3ae24967517ae8b2e9592daf451840bb98e;
 0x17ceb42a19de6dd32e3b38cc2990e64273b52a5618263eebfa49d84518ea3bef;
 0x2adbde5c7b73e9a7e22b913f99e40d95e689c65c428c2397cd273923cf68ddbd;
 0x14bfe33115df293670393e1dc8da4d6947acc4b60249e5b1c8cae376665cd580;
 0x2bf523cd8aa3be20ce7d891f8727a7b24b72a4d4838484de842acc782fd8bd32;
 0x33b93a5cf15ffbafa2726f2527824a11af8e42e01d3a7ee159b273ca0a6520c;
 0x249f416fae5ab52a435d65201006dd8ae8d54266e4d5643307551902423f7cc6;
 0x19a9079a9897a237074252767912bed7b7635ae8ca0ede2dd3a42a75c1c6b81a];
 [0x1358bdd6b7a51b1f5b5d094dbd8ee086ccdcfb9c27faad0806e8ef718d0e2b1;
 0x1c06c782fbc0980b9e493b29a5e4a04aefc668cd4255d6cfe208e9e7c8b9a1c4;
 0x24529638ebcdf26de8816287fec6370614e112e10c039190c103a75ced11b426;
 0x12641cc3cf50ca67bc93bc8c19ed89d4613e9e281a51cdf313cbc8111922242c;
 0x29012deffb112eb14034159c59162f866d4a1803b4d192a4329359f0f903266f;
 0x1a8b8ad1ecb6cb888273a90bef8b1a2cfc03dd44e0b28b18e1074e404a9e0f4c;
 0x17ea198f3ab261da000152f26b0eb0ebe088a709e8b06a18a3dc2108c2096864;
 0x45aaa99ce1e06a3c02150804a91087f57a43b79797773e83216ca969e873380;
 0x254e3acdbc75ac592679b032b65a9c91d2e092ab5e5719551b5da635b13e9471;
 0x12a996abc8577021ac7880c16f058d9e06e9511187f0aadff6bb640e4316d26c;
 0x777edef4d91520fcd490a22dc569a97e540a0fdb527b4b1a3a854fe346b8e7f];
 [0x1c2007eba4d1629846bb69404acc84565de5d24620f75cfcd9f11feeeb3f3748;
 0x211865b7f9c1c791a33d703ad3280f69756324349afc8912a19b83de2cd06a0c;
 0x12e4b5408f48641951739ea27e521067240b82aa51a42de2d4dc1e8225908187;
 0x2185c7a4ad8cb21f19009396f134a2c3fd614d305e475ddd19f26f6d4b3f9ce;
 0x9c4b2f61adf245266168cc918e96f7f8dfc35bd3df7b23fc641ef01bcc71cce;
 0x281eca14bbc3920919e001150451c3e44ff18e1dd1171412ff5e663d74a073c1;
 0x533e8a454b8cd6df8d48fa9b0a9cb2952933e1a6b1d423cbc54d0533a72599b;
 0x284ccf70859547fcb9c3c7b64cf0ad62e51726ec81b58eb01c1a1f8ec7a9eb70;
 0x4fa5620a2c057dc552a59fdefe50a901068190fdc3df8761991cab50a01a449;
 0x2d2640a74ede9af6c9888e5f68a84fac92b13337dad8fc6152fab34b55419908;
 0x121a3764269fd35cdf1e621c3dc6318f47b862380ba00357849d8840059463ee];
 [0x22f49d7244077e41f409c0b353afd1696e3aa15ffdb4a0bdb883ffe7a1a87217;
 0x25542e07c1c13979bb14f8d4ee93dab7a3dc750806cf37f2c02ff53b4bb9e66d;
 0x84b88b1ce4598b701cf96a3379a02a3157d4193c8a8f1157459f6a34ec32fb;
 0x2f6da385450911cd272e13601e7ce66c2b91d809307492f7ee578ae34d6f5fb4;
 0x1802b97e54bf3a8978632cbe10e429705b03680325d26ea190c0f1ebc7362ea3;
 0x54cc81c7d1d59581ebcd26b16ccbdcbf1968d77f87a2081d13054f51118f7c;
 0x19681b4242d11e28aa72530cf33a7d15719f1a888fff625e04652c77ee2b2de3;
 0x1abfe4b1cf5db29d4078e5289bb143498abbbdc9af56720470a26a3dfa2ba855;
 0x1d2279673f6cabf0a1c4b8eebf8e9c78361680b2e59d7ec19348819f5b3d5a14;
 0xf246d2fbb4e1217f09631fbc8770827c36751e6ad8d6fb16810e3395143ad80;
 0x2f80ca151b077b50767281ea5d4c1f7457f8da444dda16d8149bb6c1061ed0aa];
 [0x1951523a4270c54403dfe3218fd3d4ccefa43114f1b19fb2c2821a4374718b9d;
 0x12b5a09e1e95e0d01fbcd234fad473d8ee2ba976fa22827ffa6dd03c8b25a64f;
 0x2c184e904d7bfd368d4495b9e3027f9af6b9313c8f193f929ac9e24d10d7a36f;
 0x16fc48e55d64d83010ad573377ea2422397fc3a7e6c88af808a566de0223f0c0;
 0x2db1ac4c2b1c23a00027fdcf0f663af896d87415bb035b149d28ad3da98c6fcc;
 0x170c05a5f8a55d5c9fdc5e8238b367be358917a19a28b4c47e46f3e73d42a085;
 0x1eb7f6e5520215c15e274355b19bbf71abbf04aa426cd07da536cb3f909f6e57;
 0x14111a74bd24730c833699eb41b38f1d4ed16fcf0fecc1655b76f2437d4a0c9a;
 0x2d46b48e5090c0c56a390de373f4c9a2008db311fe31063cf4fed54629113585;
 0x15f30ebdfb8b8ee644241039a26b408dc7a8de77f2cc6fed754b703ea92dde53;
 0x1ee950c45a0c2f4a4b64688a7935ed2b63d4fe5b414afa05c1a284674409f165]].
(* poseidon_bn128_constants_opt.rs:999-1152 *)
Definition bn_C11 : list Z := [0x752af3c6fdccaf3868276685f0a69b9749e1706a82917b64ec2ef847f804559;
 0x69503d417e25f4568c7858ba8334301c0fa19c1b348bc7e18a4c1ace1d15418;
 0x25c1b121f33f4cf7b308ec4630f27b603d22aa81ca3595e801c5fa7d9770a096;
 0x23d6b55145bdb32827c1456af4d7be4c2d213e825c1d2f0c9ff99b2273751f6e;
 0x1b357bce3ef3f2b76afc2b5804805adb14cf6bf37fe2357c79aa7d6b32acaeca;
 0x28ec5ac0881c1e6426ba499409894a6f3c276fe5689f2c35c9027e80944877d9;
 0x2c9862524ac8a07b47d211c9c504c8b0bd398d028acf690e4b8ed4005dd06eed;
 0x1f6e6f0ac4aeb7a52343f30418078b40644cd43e290da0baee92891c4c065ac8;
 0x3db3517e233f8a76d21b2fb23c85fa7cacc577769edea09aae39407b9af2fdd;
 0xfc333dca4183dab479c5962eb05ee4b79a8ac6e0cce9e9b0a2142247bfd0877;
 0x1eed281978a8395c04289b86197673b0f2b65e1a135264527e250a5cdf99aca4;
 0x2e370db23857de3689fc9b908bf45ad8f42da900fdb4cc94a7a416286555a7f5;
 0x109bb6e5e04c0eb5297130c6524097470f3375c12fc9092d21ed33400617a0a5;
 0x73f4a17d45ce4cb6f4db87d6f3f5f4f1650c618e403e1873ea3b8c4dc187cfb;
 0x1a3bcd45a2b1dfb8e75686d3651cace13e1a22f5d838cb4a61b17417665eecf0;
 0x27214751aa86fd2654ea05fd2611f0d907287433875a8b0c3eb4b22d24d73ab7;
 0x1c5463d40460415dc684ef2415ba66628b17ab5f9fbc9597ba65b74892d34401;
 0xf934ec1ecd7ad74de590817347658a22a783496bab9943ca1a3c604d4cb745e;
 0xec2ad1eca0b260c4c6573f2f3b506e946d2a82aa5f9e65c2fc4bf65d310b1d1;
 0x10403c6f930519af3177a82f2be1532e5758127ca9fc84c93c652279618acab6;
 0x12cb8319683971740fa81660831ab6dbd3d93c7bcd441a912810d963582bf346;
 0x2c7cbab33b6294f292ee0eb31d53daf2eb8494d96a81c0fdbd62ffc681e71302;
 0x19e16c1b9123bbbf8fade03b4a36c5df8580f8de0163679b1815dc90ec581bf2;
 0x2d2734fdaea6da570313df4a533c0049e44b72b64906ae9cdcb3c86708637a4;
 0xfed7ce5d50ca2d33d1adfa990161fc780cdc30c5bf2d588184a190f686567c6;
 0x2533b8b3df21fce8544a6e12fd4c3c1fa09d3e1f146ccfab52af1ea4d6ea361c;
 0x254a9b0da17f1d13495dfaf68cde98e224f80697a0c31b89af097f3cb270f277;
 0x52a196789e7e3c6a020a0d2f82c246a903ad7f8ce3cede8153db72ac41ce566;
 0x21df9d899981e100541aafa28753e763a4c5a2af9845b0e9b7c4ed1e7beee2c5;
 0x10e9254d95c04bf4988f6de51fb019c8a7c5a20168b6a59479355e880028c873;
 0x1872d404afb8424952958f29d07b60d9f868d5f26a4d260f843373b706c3e850;
 0x2f7fbbb32af67d88737201022b56a6df47d476dafa7b88784aa9ab73c57a6f9e;
 0x27b5ad383fc085d2c2639e80629d7086e4030ae8e08ebb403860b4eb2b4ac487;
 0x20a04ba73975ea1af86ea418e5b9fff424b93a3807ecc3aeccec77de9c1d5b1f;
 0x4d2735db418968e804766f579f2a4abf79deeb66240fb29907b034db93472e6;
 0x210ba11f3526101019b98aaf9492c04491eeda701ebac8c66c453503176fc0d5;
 0x598c75413f3f84338c4ddf176e856f6ced73ccac8d5bc8fc6f12d5f306ec8ec;
 0xf1a2d9fa8407e310c58af407bf730becd9192070d7aa4215379d1efd9e6d2ba;
 0xbaf577ac2621cabdcf7ffed4073e27d1f711f9eb5a9739c12bd6df07a3cf257;
 0x23ba3057e5d9f1429ec7848b893ab3b40161bdbc6387c958c5872b4491b366a;
 0x1b6010fd6990d3e4928fdff736fa857bd517e35935e54a1d6cadd941eadb8408;
 0x2943fdadb96607530cd9f1000db50da2fc5cb030b03985d1d3cb53dcd6937ae9;
 0x9375b98fdd737f277a2ec26a56d374658f448c690fc8e376e0f1012e4da40fb;
 0x1c124f9f3a2672361b19fabaf0f2e1158b313fa2374b72c370b4662bf96e8a26;
 0x10e282b93792c2a893c54294446a63bb36a5b3565aad7504499fc22ebcc58836;
 0x4bf8cd673199f41df6b67b76dc46cefb40971f0fdd5e1fa15ee1921ab5d8603;
 0x1410cbdc261964a2ad500e3b6eaeaa50ea8b119ea11666f6558f9b3d5855acf7;
 0x2b17833b6c99d8d44c68f1a662a47493daba582bc549c3cd8ce47d572ffc9137;
 0x1ac55a0f9d9d4983292eb30427f1ca01b861f17809f2fd94d3d89b2f72627ec0;
 0xa5efc41de76c914410e9147e5e67f89c7792b20285cd0d15a1c1891e91ac293;
 0x1344b6db5439c46a22d144f4d5843e29c750b1acf7b0727106bfdb94cc023cf3;
 0x1a041839e844cdaa0f7c2a61ca9259e860599258495fb00d6a75b5c503e71977;
 0x2555c529d366e3d95899d9c4ad4c2d4ab284de4a45d6060ad91b8a8bc5fc24df;
 0x137894d2c7ff06b141e601c9a95f5664119ca32b55dc5e1667ba62524954a724;
 0x1f2ed1b26cfa389194477925f4dd3bcef79e89829c8c9645678343a13ab2f637;
 0x2072b0c4af46fd5d200122be5c5011f1bff2d44ab5d440ad946db4ba11b52350;
 0xcab3a8e77c43896efc4ab5bb12e3fd6d234a0dcb236c7c935c57a00338511ee;
 0x400e867efb3a8887126f96ca884358e969f14ba81be4df7668652e15a581cb7;
 0x594f14af7027250911a4b05478f659bab181ab426631fa4c369c361fef0e09d;
 0x171345094adedc87f3840f78d3f3ed67cef3b6a6a269b97198e012abf0ebb722;
 0x1fdbee4f85800afcffa10d76c25c01867b472d48da1296ecaab478190f81e242;
 0x1a37c8b010fe5a7f299fcf41738c50f5a904cab582e411ac14828e0c18ba8753;
 0x59cbe918d4cc5dcf2d3a31b3af2c2cc107b6cfb03b1be9a939a7f73c5075b8e;
 0x2f0054d719e7f0d3991e52178a020d3b7820a7f2a075695df201a5e292831b33;
 0xd3353ad739baccf5ca9a56840d99776b5a7fb60f9179dc15950c0639d18fb83;
 0x507a8c3d3f5f3965e2e9fe62fe9e824691cb53afd7430b625153661da3e94df;
 0x1eab1d2b44f79f50e2ba917a96b21934ebd43ef50caa5b21def5efd8c38d9174;
 0xfff97abc5a6318b03b46ea4361c8d29fd8a5a4dad51286897e77c2aba9f25ed;
 0x228907c146b4efa56af5b8f2e59beaa01741ab10f3287369efcd78e1b16ded07;
 0x183a209d14af4a1a9db0c647ad826fb75aa67506d03a50e6e937e3a4dcc2d0ce;
 0x17052b40860ecfd4bae684ae12271e93a32e1b703c3127d5d23558bd75496d2c;
 0x3a61810b60e019e3a5fb53fb055f81600c8f269b3c97fc228b373bc6a5e564d;
 0x296d0434d977a105b07f8e8d537a8381e885dcfe482c3ab773cf1c39b3bde3c9;
 0xbfac73b8e7f9882bf69125684ae20c7184882d3763ce87911dbc3eaecfe86c4;
 0x13900e213c48cdefe3e7090111aaf1c0873e21ba0f0b124daa1e9089677ea937;
 0x19f5725d859bd99469369d8a5b029401d90a4c7cf37267b4700ddcee31f78bef;
 0x10f8c20b30622bb769d902fec064d87fe8700497de4c3a32673414603f341f22;
 0x1a5d44a9d6eb166727f3bad1e4c9e4f20dd9e5c09b8ff1685813e84875f7c267;
 0x285812d1f7e9c5652ea549efde3426019405bb080408b01f51ff04af5ca4f7b9;
 0x17b5d657ca524c4fdcb6421bbf15dceaaec891e7a730177865542a3ec67644b4;
 0x1512120e54def6119fc731a80ebf8b9aa449a5e6a5654dcb16ee8781b55c40ef;
 0xce6fd9ff326d991817ed66f0fed93298dc8116c05f09e2144830c07afa25700;
 0x14c9e544ffe86f310c027522adca6e667dbf138a586e6fa425bf1f2b2114bf80;
 0x2e8ba8e57fe1c4ea06a941cdd2242c414fcc9a1e645b7e137ce61fc4456dfa25;
 0x1a1fb2e69ebf43dcb8ac7cf0e6856170be8c62ca1db0f77120d36aade9fae908;
 0x599e10ddc716d701d5857e23dec1130b5509c3913fffc727ce207783a2acca0;
 0x2908ace556ff1f368f843e0842ccd0dfaa42a34faf67e0b78de6c47de2b6a036;
 0x1e80d381cfe184b2f11fe38d64454a6292eff23f524d6fafae34ce150d1b8405;
 0x32c3b2a8872c39fb3edc92ef95e76fdb6381f829fbfcddef26004da5b5d720e;
 0xf058306e4f397b7b02a58ddae87d5165f21bb6109be64cd3175097f63d0d402;
 0x2a978242c551fa8626d0def5ee59675998dd8ff90eeafa7d935b58b8a2d0d1fc;
 0x2c646cf8d9ed14746f8a2a438cdfc86b70fa1c31033d4afd8694a7363d1ca0b1;
 0x1cc7d59c756a8e93071f95f1eb8a5cbc2aeea366715432873be8f94e3f9c8733;
 0xd09d0e6b64757bdfd7128d041c430b0d21a80a3792d0674f0028872c14fd8eb;
 0xc28d39d145cb8b6afe18576403080ed19451473b578949a491a095b6a19d082;
 0x22a2a85f132915aa09898077bcbd76e572e4340d8085708eefaabecc37ceca1d;
 0x1ad68c4e148a6c6197fdd9fa2c45f8c6f3111ddac52db08bd2ae77860e203a6d;
 0x19b59a4eb2398896e27a0e670529fbf4b72c3953a82c2bba9541a52186cf7477;
 0x1e3aeed61e3a7bc6dbf7674f8002a59ee28d3d5d51abbeb5d850dbb3af50559d;
 0x237d14fe10cc10d41cf7b9545c5dacd245207725227ee5d5578a3cd163c4c161;
 0x7a561b03c03a856f5d7b15e895448401a8a4ddf1de311b51663640c81cf44c0;
 0x20e3c12021f53fc206893985647a3ddd64fb1660257a4b9d7d33fba8be729a1a;
 0x11cfdd5386f9ddf36e9e1a271c0a8565e03aa7e427c624c5050dbeab40b10b65;
 0x97b90f7016668c55385a0f101b699d0c924d1556918eb58c9d9a16c7815b3cc;
 0x23dd4f8205e9cb9e123e27e80f46b8ebfb4554df41528acdbca14166af70a8b1;
 0x2004cf48392d1d3492069d0b20c5ea636c7de4704668bae0400f32d0678b5f90;
 0x10efba7ebb220de9af4af5b3d2cf4e3a463d6f61b3a51b190b392897922b15ae;
 0x26ca8fa32860470e9ba95f2b328f45b6d3aea8c6694f52f7b2b6139b31f0e659;
 0x2e7a6096889e932c3bbdc1234b042946ca8dbc3bd9d42894e227abe994b3954c;
 0x2b2a5b222000c7485717e5134d31d966d01094d20142ce0be0ed5bcd238fa4fc;
 0x5d252566db243c26ceed95719ff4e6b2db926a82a90af66c3913457724d688b;
 0x3016d7a342ccaefff833834f8c85e4cdde502f4cfd2e5e67a434ceea8e7e8734;
 0x22e4a5742720cc545f5a8b5ec81fc76c856674c2956c74e93d09da15b9ea85da;
 0x158c039583d91471651b425b67a9c428746b7d2ff4d3f9c7805cd097252882b0;
 0x2e2b9193aee7573ba18105d36d5452636f0a4a23f6bb808dd7b8351b3104288c;
 0x15288eeec077977863bbecc27af0e88653434f9db50041bc64cae3a4ab0267d6;
 0x294ac3d23fadc39ffde4fc51c231fcb1e9043d207384a51281ec6993806fcbc3;
 0xc994f0154a6042df030cfcb8775ea9baf8790d101fb004f7921bdefee4dd;
 0x23be197c83df334c3818a4eb54f3755fba5ad61c6ca408d6fcaee753a2e449e2;
 0xabe4f60f5710062df7838a25e613eec5c7c500292cfcdd88c4b104f92e66dcf;
 0x22d9eea2ce981be68d03a627a1ac38ae17393b42fd589e8492df86bd03f69ba5;
 0x17fd7f4e675f456e77902bd68da43d7a0cc8ba75075bdec73800b670faef2c81;
 0x3cbf13917d8f6962b85bd9b1b475e083a9a6503290264d732bc7045eb4c0e7a;
 0x13e3842e78b6be3414c29bd5528593673bcf7a071c9e547d4a6a8e8c1f29f43c;
 0x2638bcc34e7ec977e6205a356d8073edaeb37d6d0cb2ee15ccc657e00884f71;
 0x1824a36f9b33cd88b29d9d56794c02f0498c8c3520cfeb8d7d23df01dd11bcb8;
 0x2f64d3e9e9660efd747a28a181719770cb89acc868f1db0b42a0d41424d5b97c;
 0x27e976b95c1db0a431cc63d2bcb77b7420eab7240caafbd4f6ed94b771d7ee20;
 0x71017cf059038a6f1ad9223c843e6f687774a7b677edb7d7dd6d4d8aaddff;
 0x263e1eb69b7b2c87f3d9f4d492100367041a00cc20091402d6bf495d74deeba5;
 0x1dbd8f7a790ee4fb6123d8162e879b6d334e137c224da75baf9b00dbd5b14a27;
 0x1df0f444008cdfef43484dc04f5fdd1694d6c90e8f2e35a1850831879d9d7a2b;
 0x2ac29049462ba770408914036f0fc449f4ac15c4a5c16768e95e2486c62da8b9;
 0xafee4216cde441ab47db90ffdadb12b08978ac6f623f3acde4d4f9d8c77f3a8;
 0x1f5df5e1d3372dcbc83d7072bfbf2ba8914024e3398ebbc3461403d39a1e9895;
 0x11c09f4be4433544bb604db662a722bb16824fd85c484c45bf25dfa5ea9732e;
 0x111ea5feb756eb07f942b5fb23849db24d1065b278b4643d55311c0672cff942;
 0xab7c194763587f1dc30e0ed53aeb6eeb6036acd702bbec9509d649a81f940bf;
 0x282c5951f988191603f9dd07759a4f653f19976943d20e30d4c0f8faba0daa05;
 0x23b82721a7cdaac2a39f7b4bd10176e50983f32cfda8bab88ea746ebd4d25ee5;
 0xbafc22c31e735870dfad91a56a46ebbad29b29e531649c85bf79c8dc91c792a;
 0x24710e9cd9f6f42f71cc8815934ce87ca0d677facf1f3d89a9abc2da898f9687;
 0x2475ccab50e2c13fb5d772a07571e0e6be551a55e250e44f22adf1c7a4d7ede8;
 0x17326fde68e193e4a31782f2acecd7a468493aa94d63833575ae5184e9ba2441;
 0x1d044be025c79f610d4009ee0a3f3b50dc556e785718d196e67c60fcda498459;
 0xbc38517b0bedb66a044e38b1c199d110fa36adfa1251d46e635f22ce8fb3b61;
 0x218a7ed7b5b4e39d21cbd4ecdf0d4f31308cc205583a9ef6d91ed6969b45c27;
 0x70989c23efe1c0d6089f9bf987be86854b4bf5aa88b37dda3b4fbdddb068f36;
 0x11f0a1f2d5894630701027346163a4c6974023d321780e91c8df5e91ea930c7b;
 0x9070202bd144c45ab704c72dcc40a5566cbfd5826f7af4746b4472b1e68c390;
 0x243392fe4cd6ca6b6747596c387450ce6a1ae7b0a90eba222c3470d8a80138f7;
 0x1a94265093ab44062e5d0e67df9f4b702df8de8dfadcac6cb4229681117a5da9;
 0x1ab31ce49e37f690baf9ec7b1443357cd24d7bad16a9e6e95e43b6564d987b1c;
 0x2179ceef0feee3b0b03c9658e97b6342f25b208d7ed8e526150fc3b559128c5f].
(* poseidon_bn128_constants_opt.rs:2763-2903 *)
Definition bn_M11 : list (list Z) := [[0x26dba58ade8cda188f49e52fce7167b8f219dbd924d7786b0f98fb799fefa2e;
 0x9813c803ff84a3694eedaf4b1c2172615275dc18ca654c799a70440946ccf0;
 0x202973f7fba5bd21ed58bfe7156d7b29010d41090f63f1bb290c1d5da1ad60;
 0x12305eadf64dac24a7913a62d95aefd45f48355576c671e56fde9cc7c8344ffd;
 0x25c783ad66d6a1fc6c84770bd637f6207097dffb0378d7e0395f8c0b86b505f9;
 0x222deb606f13cf28c73a67216d88b16f5958d5d292ba10ef3bc2c10f5a0b613f;
 0x1614d025472771fd870a9e9d422b3571c5494e7d679824d8fe1212177d5fa2ec;
 0x1358bdd6b7a51b1f5b5d094dbd8ee086ccdcfb9c27faad0806e8ef718d0e2b1;
 0x1c2007eba4d1629846bb69404acc84565de5d24620f75cfcd9f11feeeb3f3748;
 0x22f49d7244077e41f409c0b353afd1696e3aa15ffdb4a0bdb883ffe7a1a87217;
 0x1951523a4270c54403dfe3218fd3d4ccefa43114f1b19fb2c2821a4374718b9d];
 [0x11a131a3778c3774233bc54096419d463d3abbae18322a7e77a511881665f93;
 0x1495af03dc9180c886f0e1bdaf9d18e32e6b0d1b80370e7cbe5745dafc433523;
 0x119344c53707f00243983c6d024fd49a0f8af80e5871933e58ff87c3a1f48b93;
 0xa92bd6a919d1605615786f2efe80743ca57c10ec80cfb926722b5bed408b79;
 0x1c7d3a92caa435cdd974520bb6fb6cac81634cc9bf4e534df77736e06d768c3c;
 0x12fb88a0f6f749d68da9250d5adecf088442827248d67f989fd14b5c9cd4d4c7;
 0x2f6c4e097bb5851be12bbe2c712c2fa906f310b78048d695b4aad301ffc0d268;
 0x1c06c782fbc0980b9e493b29a5e4a04aefc668cd4255d6cfe208e9e7c8b9a1c4;
 0x211865b7f9c1c791a33d703ad3280f69756324349afc8912a19b83de2cd06a0c;
 0x25542e07c1c13979bb14f8d4ee93dab7a3dc750806cf37f2c02ff53b4bb9e66d;
 0x12b5a09e1e95e0d01fbcd234fad473d8ee2ba976fa22827ffa6dd03c8b25a64f];
 [0x2a18ab4dc4777e13cb8358c1c423153570d1cb909544243abdacd4547c8ec3aa;
 0xd95e8cf8a66b56c32e7d11e0107e41e1297122d1acc41332f1b49895a3c97fc;
 0x7c22f96f2f55653d04edc63150567a7a04609b0b79eecfacb1485dceb7bc873;
 0xf716c54de41920c401a62df8f9186e19b9523e98637a5b113d61ccc30ba0213;
 0x2cd68fc31b67dc45fb6b16f42b5eb89dba2ae7e9aa50c5f1915275a81887190a;
 0x66292e64e6a2c64673aed365cb50f7bd4e1d3b5270f6b2e9982590c3f8400e;
 0x8a1ef65f52128eb3b22df2b6aca30509b0af8af2f7888eee766c0c24871188b;
 0x24529638ebcdf26de8816287fec6370614e112e10c039190c103a75ced11b426;
 0x12e4b5408f48641951739ea27e521067240b82aa51a42de2d4dc1e8225908187;
 0x84b88b1ce4598b701cf96a3379a02a3157d4193c8a8f1157459f6a34ec32fb;
 0x2c184e904d7bfd368d4495b9e3027f9af6b9313c8f193f929ac9e24d10d7a36f];
 [0x16ebd782cbcf6d63c38b87b27db2a4a5af5847a9a60889c4cf6aa318d6866b1e;
 0xb05f16108c4616a973b01d82e50d4fc9dcdcce67d2d21f852816bd234e9872b;
 0x2f394cfd3e442503c3a22512aa4b76b95b743c7076ca4115a9fbbb7c6b07ee5d;
 0xa157e244f939125d57f9c8e66f7d88ec0fb3c05b90f526bac0871bca84677f5;
 0x1d4567c12db648d4a9c41324c0329325b76a07730fad72ef9e490a748674985c;
 0xa94a2d7c4093c638823b095733f37176d7e747ba24645b515ac2a241ffdda81;
 0x2f6f14502f20d958a9ff23b696cac3ae24967517ae8b2e9592daf451840bb98e;
 0x12641cc3cf50ca67bc93bc8c19ed89d4613e9e281a51cdf313cbc8111922242c;
 0x2185c7a4ad8cb21f19009396f134a2c3fd614d305e475ddd19f26f6d4b3f9ce;
 0x2f6da385450911cd272e13601e7ce66c2b91d809307492f7ee578ae34d6f5fb4;
 0x16fc48e55d64d83010ad573377ea2422397fc3a7e6c88af808a566de0223f0c0];
 [0x2b7ed47fac275d34f842f09b01ef9421014de040c26a591595b227ba7bc6fb2;
 0x230b62315b30bc49d73dff8a9de79c620e03c747b14c432f170715e588d605aa;
 0x206351750037bdc90d4f3e7918619fc690c2b5857f8bfbd86d7c001e4cf2ca18;
 0x2218be861d524eaf03b9420b1368e9c5aa7cefee72d0e6ef80732ee9d7e6e2c0;
 0x69ee4eb20b4860d4af91afe1781338f53aa354562ecd873e0e625af70746f26;
 0xa226128da1d9bd5b329f55f52c75682def3369ab13359dcb7d212eefca86229;
 0x17ceb42a19de6dd32e3b38cc2990e64273b52a5618263eebfa49d84518ea3bef;
 0x29012deffb112eb14034159c59162f866d4a1803b4d192a4329359f0f903266f;
 0x9c4b2f61adf245266168cc918e96f7f8dfc35bd3df7b23fc641ef01bcc71cce;
 0x1802b97e54bf3a8978632cbe10e429705b03680325d26ea190c0f1ebc7362ea3;
 0x2db1ac4c2b1c23a00027fdcf0f663af896d87415bb035b149d28ad3da98c6fcc];
 [0xc5e49e319fb9535073f07f9e055accaf3e3f24a35dcb46cab67dfc648efaf30;
 0x15d217a31784741048f326e155af96e90b5aae734f06779e698864039c92e123;
 0x1accea09c2bfd17f4061725c712fd1976a07e773e54d906da166215201a58136;
 0x2f9bd19d0c8c3887a7fc0173f863f075e66b183ad89f13704930416e1d5cb7ec;
 0x6cad0c2bd438c4dba2ed64bbf75066e731484c36d1f6738b6e98601e9fb498d;
 0x1b5da83966361586e8810fed032435caa80a9b476db21290474ed1977fcef22f;
 0x2adbde5c7b73e9a7e22b913f99e40d95e689c65c428c2397cd273923cf68ddbd;
 0x1a8b8ad1ecb6cb888273a90bef8b1a2cfc03dd44e0b28b18e1074e404a9e0f4c;
 0x281eca14bbc3920919e001150451c3e44ff18e1dd1171412ff5e663d74a073c1;
 0x54cc81c7d1d59581ebcd26b16ccbdcbf1968d77f87a2081d13054f51118f7c;
 0x170c05a5f8a55d5c9fdc5e8238b367be358917a19a28b4c47e46f3e73d42a085];
 [0x161e4ae5b2d24cd638ba5c32bc2317bf90d404e37e003f1055d9a96e406d30d;
 0xaf9afbecae1761cc17d44b51ca66d1dbdeaf341e85f1082958f9cb72f7b55d4;
 0x5e52c0ff8c04a8e5e3c7eafa1d0902fe63e35898934b00f4333b38fe614f913;
 0x14eb401c1084a9ddcd5d0092e5d1a299aa0f55c351545c781703c01ce87d6b29;
 0x1e0e166d734aa614c6b53db4f691179841a33f8105430a3ee70abca83ba6ec6e;
 0x2fa75deed281db734faba5b70eaf57962f93e2eea1d3dcee34c81ab1e9fcc0ee;
 0x14bfe33115df293670393e1dc8da4d6947acc4b60249e5b1c8cae376665cd580;
 0x17ea198f3ab261da000152f26b0eb0ebe088a709e8b06a18a3dc2108c2096864;
 0x533e8a454b8cd6df8d48fa9b0a9cb2952933e1a6b1d423cbc54d0533a72599b;
 0x19681b4242d11e28aa72530cf33a7d15719f1a888fff625e04652c77ee2b2de3;
 0x1eb7f6e5520215c15e274355b19bbf71abbf04aa426cd07da536cb3f909f6e57];
 [0x223c7fc6d24fc53d1b428edb8f1c52d20ceec592187d2c7a6b0b147b6292b81e;
 0x1da4f4e3c6790ae1b89c4118861d8ca2a50cc82a4e7f1ed3c5ba8cb944ba4689;
 0x2e708baaf894bc5835e5fea81227fa8cfaef99086d12b0a3a7f3f85bbca61d28;
 0x13fe23be24261ba5b92d363989f58e17fceed4a858d1c61fc2cf2b71dbdb6936;
 0x1c879c9428e19607d647f5ef1415e76f7c59fd01e52afb80486081851f9a5284;
 0x128cb3150b15cbc4faab14bf7d676ef3682b52cabfc8d3419dfd98109d19ecc0;
 0x2bf523cd8aa3be20ce7d891f8727a7b24b72a4d4838484de842acc782fd8bd32;
 0x45aaa99ce1e06a3c02150804a91087f57a43b79797773e83216ca969e873380;
 0x284ccf70859547fcb9c3c7b64cf0ad62e51726ec81b58eb01c1a1f8ec7a9eb70;
 0x1abfe4b1cf5db29d4078e5289bb143498abbbdc9af56720470a26a3dfa2ba855;
 0x14111a74bd24730c833699eb41b38f1d4ed16fcf0fecc1655b76f2437d4a0c9a];
 [0x1ae060e39b338d09845e2e9ebeb70bfb74cd4af926217f5732be2b6cb7fe72a6;
 0x2860aa52dc2f967c0c1a0b942ac81e02189d031430c11a919a5aa895bcfb6151;
 0xac23f00ff015baab1c8be9a90943c3c72d17818be7ad427c45eb3ff1828727d;
 0x32fa2f166622f057f61a9405c9256223cab2ba82c9495607921755ab018f690;
 0x215c0cd4e3f1bdb482b93e571879d7931be90023d7a220e8f93b21c8add41ffa;
 0x52700b19ef6d42ea392e044a094cbfc308eea1f72f2a3428b1e721bfc32c6ad;
 0x33b93a5cf15ffbafa2726f2527824a11af8e42e01d3a7ee159b273ca0a6520c;
 0x254e3acdbc75ac592679b032b65a9c91d2e092ab5e5719551b5da635b13e9471;
 0x4fa5620a2c057dc552a59fdefe50a901068190fdc3df8761991cab50a01a449;
 0x1d2279673f6cabf0a1c4b8eebf8e9c78361680b2e59d7ec19348819f5b3d5a14;
 0x2d46b48e5090c0c56a390de373f4c9a2008db311fe31063cf4fed54629113585];
 [0x46191ab41e93929ea51f190fd4e773ac8d5083328d4b2f04828dca3e69098c3;
 0x16ff33d67c85121bcee7d81cff1618927f1c92b4d1d21c2a07b6ae18b2b7b9b7;
 0x2134798f4ca7fb9928012c937f37de87432b8665aeedf373e7ffa6fe0c13d00;
 0x2aeddbfa245756ad1e1658629f747b8da7593b195cc950324f95edc9eda42aaf;
 0x1f41fc67ca1322b37b7aa01b631fd19105281f6c6a4d37fbf68fc1b5f62802c6;
 0x22d1e64d4ee15e60c459d851ef9f3495e937f5a90990382c97867c45b7940071;
 0x249f416fae5ab52a435d65201006dd8ae8d54266e4d5643307551902423f7cc6;
 0x12a996abc8577021ac7880c16f058d9e06e9511187f0aadff6bb640e4316d26c;
 0x2d2640a74ede9af6c9888e5f68a84fac92b13337dad8fc6152fab34b55419908;
 0xf246d2fbb4e1217f09631fbc8770827c36751e6ad8d6fb16810e3395143ad80;
 0x15f30ebdfb8b8ee644241039a26b408dc7a8de77f2cc6fed754b703ea92dde53];
 [0x14ba1b5383e3733c63d00c32c2bbffd8e54507ed33bf7544c86388191eca3e40;
 0x1ba0e835f47626b0d82426900c49170a8be29c39d90337aa5fc10764e2321a1b;
 0x219f5e28a5fa52689d2b7be432624280c940c9bf9883c1fb0fe929f78873c1b;
 0x123a6055681023b16570c70fcdf3ae8e387a973690b9e6761be22f9941d7ef76;
 0x1dce36062af7e4b0098f5590622ced7af9f28e88d476cde1391eb30408d5d266;
 0x252e74746677fd7584ceb0f8aa6936bd04f9528ef600737e9913fe4b5698eb28;
 0x19a9079a9897a237074252767912bed7b7635ae8ca0ede2dd3a42a75c1c6b81a;
 0x777edef4d91520fcd490a22dc569a97e540a0fdb527b4b1a3a854fe346b8e7f;
 0x121a3764269fd35cdf1e621c3dc6318f47b862380ba00357849d8840059463ee;
 0x2f80ca151b077b50767281ea5d4c1f7457f8da444dda16d8149bb6c1061ed0aa;
 0x1ee950c45a0c2f4a4b64688a7935ed2b63d4fe5b414afa05c1a284674409f165]].
(* poseidon_bn128_constants_opt.rs:4885-5025 *)
Definition bn_P11 : list (list Z) := [[0x26dba58ade8cda188f49e52fce7167b8f219dbd924d7786b0f98fb799fefa2e;
 0x254a28279a58c838f7392034aa21d51ae44e1449433d90824b817e44b90cd22b;
 0x281d2ccd521bc060d152223d46196f27b048f33ce6ffbbbb0884f3d5c64a6061;
 0x10b388ce0c7860c8a70c4e903e61b3bf97b87e324c9150ce576aade8b2d06a1d;
 0x3ed1d46b39ed65512e3e4c8d53cc1d2cf110cc65e1d65b37f1e5e785a6fe6e0;
 0xbbac4700573f9573a123ac6a2735b63c48df92a7c91cfd1e88186a061a102d6;
 0x4083e23f948783c32f671cad0395794a2cfa8aa1c1cb6a0c0105590904b2593;
 0x1fa80347e1bb24e08599758c895a5a13fbc63df14dd9063f5ee23e5cac163b61;
 0x1e465c7a4b123984937605aa07cb8cb830591e22e25b4d94d2efef2f25c17f3e;
 0x125febe3a720ed956f1fdf75648260e56e67d32d0e785788d1cf97ef61f6ff69;
 0xa3e7d3671a213b3184ac44ea74e12085cf5380c688ad23e8300e69333c123a7];
 [0x11a131a3778c3774233bc54096419d463d3abbae18322a7e77a511881665f93;
 0x11f3eefe7629e655ea90af7061b775bdffbf26dfcb0f67a5578774e4b237376d;
 0x11f896a08f039c3fe481a03e0b8c880edbf71b783d169f4bff14bed5e1b5f15;
 0x127270ce679a10a9b93645264ed270d96f109e3f65a437240d629e59eff1b2cd;
 0xe81abedbcf77d0706b6a4a7438b5a9c42257b1233f0426225c8d410de5806f5;
 0x1bd40e4b13c0eb7bac78d2650586a59f28b7ee26be01fa2a677e734078bdc210;
 0x22202ee3e2df678269ac3833b87fd279d1d045fc42eb3ae75107188ad0e39bc5;
 0x196301b7681fd2882ee086f61a83db475a030017f92f72dcf3ebeaedbc571520;
 0xcb517d9337709a54dd958c64afc6c8ad84fca2f59fe3098f74a7537debe0d2e;
 0xd9be42ce8bb76bd249d36ba2d8c5a70b52d20c9c8686b7cfe346d5c72bdc15a;
 0x2240e2f64b6f5bacdb2d6aa0b444887a91d1ce0eb1bbcbdd58ea71499b7a85d5];
 [0x2a18ab4dc4777e13cb8358c1c423153570d1cb909544243abdacd4547c8ec3aa;
 0x1f19f9b9169b49713bfbe59154cd93aac19d03b4668733473fefac6eceaf9a63;
 0x1e6425bea9db8ee466777ec75d3103cd11ad6ed24283a0b188b5aade7d496cd4;
 0x22e2d64bc44841b96bb9286970439150d70c55f8d65fa79f1a4ab34befdf3c15;
 0x22ea712a97059dfd8af604c752e478b8d883333e6749b2ace5385f0ba8697f67;
 0xc19fc53d6d946af3d7fb79d8f22c46df2e1b0d0f2cfc983345db3287c44853e;
 0x177800e892cde6dcf66dcb1c337b6f7f6f6cdb54dbe7e2e2776abbfda1fc67af;
 0x133f706a099e95021e46b79e7f0fffdb210d87a4db1d129bd6fa5f62113cee23;
 0x2c540ac453bc95fb61ad879a56126d5fec7ed9300d545938bcd80c2feee7a3e7;
 0x2575061c9a069654a195fe41554ac0f4080dc8f7e808d676f3f33c615978d593;
 0x283d7487aa3b5d0ede9c741fe754882776708f9bf68c745abdd38250ce70c288];
 [0x16ebd782cbcf6d63c38b87b27db2a4a5af5847a9a60889c4cf6aa318d6866b1e;
 0x15b3fe328216827e93598e15425979e9dc4d9b9ab421f25aee3e49bc6067d6bc;
 0x11cb96a094be409eca05bc42f6d8ad0f6cf09cef2b286fe5945d587cc36862ea;
 0x1e5c6cea55983c991761cf70ca77fc17c3789a8023d2752554b49d0b8fd1be7f;
 0x257d458a2883c760b295e5b2789e6a942b8d50fa6fd3eb093a96ab81a9aa693d;
 0x4603c35c98c1e379b235724bb309885e9b56284a6cdb1cd0d3953270109bed7;
 0x1b2957f0c085f578b4a1b58a21143c551e5451ec46b9fbf6ffdd0cf6e586a00a;
 0x17bbaa8b0ea832469bf933ec6ee5941a1bf97f0b7b1f6b0ce3f708d43795365;
 0xca0c774b1bd1c2b00fe8f6698cb08022e4a3fcecf13d79953485c905b76f8a7;
 0x1b0265724a00dfdba001c87dcd71e5c04736a61821b19f30e02a4b53eb59a12c;
 0x29ddc736b1d7fdce1bf6a2f684702703e857b3be81599e485932a1c03f4fa16d];
 [0x2b7ed47fac275d34f842f09b01ef9421014de040c26a591595b227ba7bc6fb2;
 0x15a1af15f1f7a77a5e6e760470e7b7cc4da48f3fd35b1b01f019384381e37135;
 0x15810baa26cba809c29275debafe2859cf2350199af232bf920496c5315947a1;
 0xa1c89983188b5230102c213ce35a9fa49743c5490356fa305a8578c716f7202;
 0x2a9243c6a61b2b7464f22e1603009e6b6f7946f31cb71cfd4d291601458ec39e;
 0x14b216d879b61949c8bb2ff6d43bc7fc3c634a90b766f2276b0a5c6b09938cb2;
 0x2b2b79db9b5bdc6a1844c4e5c7f33806d44ad8644fa0117f5bbfd7183754bafc;
 0x20f56843ab66f86615274f77030d662e1f6cec212015e14896139ff6d28116d5;
 0xf2a31d4612576ccc0cb003c57ad2db723008007b066054d114a9ae32d8e604e;
 0x1a265ab962a3796d2cb4ee2980ff3bcfa03e8d6738d59c8cfb899cb771f9a61f;
 0x5f7ca424f02338e81927a8928c0f02fc78eb1d1a08c3bfb8965cc7b43d8e056];
 [0xc5e49e319fb9535073f07f9e055accaf3e3f24a35dcb46cab67dfc648efaf30;
 0x1d22b55a0b71329ee03adbd79c0a1e7d32efc4d765e6e581ecb349e2940f394b;
 0x825a6da8cf0213b181fba494995ef1fedf1d867f8c777ddb93d10b64f1f3bac;
 0x189642d90074b6ef89e102eefefd69d4d69e106cc6d77281b971315feca3f6c4;
 0x1976bffe10562085862cc586a3cbff8d260055e1ca382a74332328c0eacecaf6;
 0x25195d63f3bc30c2896cafcbcca1f5b73ef4b74929359594e4421c7c9a1c8f8d;
 0x1f523a01526f1b783c2e3760a4e7e9ccf8ade4e32b56002d15baee4eb794465a;
 0x17cb6777e65329e7c510142a85cf3781ba33de3ceb98a4ba021d783d212e7492;
 0x1308c2b9ba44163ab7190c4c151c7f44f2e19eb186dc82a2443446972d667ec2;
 0x3006fd98ea0d9db2b33144f885e201534edcf4c3ba6e96d8a22db2bcfe8ced48;
 0x14f241ecdcca69b025108efd0fbf00ed34448e7bd804d5e85a835619791468a4];
 [0x161e4ae5b2d24cd638ba5c32bc2317bf90d404e37e003f1055d9a96e406d30d;
 0x2b04ed9f42228f06802c0b537dd014217f3c444670a0c6f88b3b5ce001b0197b;
 0xda48eb83004661d01df489e8156b75d9b661c61a9ee1329fad03ef74521def7;
 0x1ba1cb5df0f9b236e9f7c4f637dd1e70784a2b07f8e062088b72c3a392d44b2d;
 0x2c22be8e5b7f7c91490c46c27a09e91872e361c1e6628793b9674569ab3c0b1f;
 0x83511f996c9f415dbe56786f78ec97fd8c84f5d4ffbda454b3c4d5901ec92a6;
 0xc3e13ba070756735522097a41a9138f5a44cb5856648daf70bca100d2346b1a;
 0xb14339306b1b2e3114e50b0607215d3f92ba684690d78d2a6ee417a73933c65;
 0x25c2045be7d9a915562c78bc1ea2d954155a0289f900c757b7138596edd9db6b;
 0x1b909b20dd52d51184b58d123962b7fb22cbe54881117270d279402c4056dc39;
 0x1afef8497500f3d89345974c67a21f1e18fa930f7d78a1ca691bde258c5e2c7e];
 [0x223c7fc6d24fc53d1b428edb8f1c52d20ceec592187d2c7a6b0b147b6292b81e;
 0x8bd608629b132b0d741a305ba0002b9ec1470499f5c0ae88e26f269ef00320f;
 0x238b46140eeecb9a32c7289626b692dce13cd51bc3812f1b0d866945c0e08e41;
 0xa5ca2631a8379a163fd40936e6913afa60c1850b9e04b622f2b6e109d179ecf;
 0x1656737ceb63a2d43d462ffd902804d11283820356001961f1239a1e7cd23108;
 0x168df74339cc5c612553d91ce34b44f60123aa40e8486e3177cef84844529bfe;
 0x1d1cea63939b21940f784f77c0f79ed523beb6df5432911930878b59f92c7f63;
 0xa2768ee0edf0b7e5e69a734e4de8129136b926e5ad1891e6cf57a5c39a14da6;
 0x22c57e5689822b5d931e748dec46c5e64c04067f579d96b89b608ab5eb5a1e38;
 0x1d4ee90cc3cedbb9973609382c57bbb1b7629fc5398ba62e2f8f7a9c55496ca6;
 0xf9c70d6ee5ba237f04597a71278dba03151a3efcc594cfe61ddf16b5cf1722c];
 [0x1ae060e39b338d09845e2e9ebeb70bfb74cd4af926217f5732be2b6cb7fe72a6;
 0x81e512179c27b63294fdc958ac35b91ca61cb3fcdbe4e661ce465eb3b060adb;
 0x64bd952087ea3f724ecaab7ab891c7164148247b3d9534508559f290ab2c455;
 0xf48a6aba18109eb41509d160d2b6e2bb75b73f2d360b142e2253e99285a613d;
 0x2144765053902fbc1577578eccf3fc1990cffbc464b8d5955e387653e427eca0;
 0x149178f36e2a8348229d4e5f829a53620864b7f8c3829adb1ce2f4f8f6198a95;
 0x9e651e10ec1fe98ba2bd23aa05696c4bc5acd233717b7069069a206301f7e16;
 0x2f995fb2fe9a457e970030416b7811a93b31b3f2ed7c7300034cf958575b3ef;
 0x98eccc1107806d905139f5aad87c4dfe9ff0d1eecc1de30e8c6a4cea8c51dcf;
 0x1720f40d61fac0f66408099bb1e34e3a48b29ad05b8910a7bc257e01de20dbe5;
 0x18fce50e6f51644e0968c44adeda32e68bc24c25e81ec37ce5e8771383cb76e6];
 [0x46191ab41e93929ea51f190fd4e773ac8d5083328d4b2f04828dca3e69098c3;
 0x662f21223a41d37668404a75b278b868ab602e313e8c423798b47c47f1f56ab;
 0xebaf002ad31782757a58dca1b295b2e0ec0ff3115a8c931ebf74fddcfb734cd;
 0x1e1567bb8636626357515a40b0d5ebeb351422e19acc9bb5b7edfda91649841c;
 0xfdceb3ae2d8a55f07822d7b92026ef83ee8bc326e3a8b35225d587bdde25205;
 0x130e0c983de0ad6d15d8770698e39fa4569f38848ee05757951cfefa1f338fd;
 0x2f7be21619fd5f7c05e31d90607acc55e36fcb5b6c55f970170e660f2d818fed;
 0x5338e9847d4e29692f22f938875dcc5610464d7393c6d87dd799bb3bbf810da;
 0xdc0a5c9bf0d5b38785df58fb22ede06709eac85f230639056bbf1333b9a2d21;
 0x10ce79d030bc12a43f0b6fff0d884c15c263113b3a6ce3b24318f0a60164f6a7;
 0x232926077aaf9a6e42e885290c6ad736f29cedc9b0ed5c5a0530e405d57756b3];
 [0x14ba1b5383e3733c63d00c32c2bbffd8e54507ed33bf7544c86388191eca3e40;
 0xdeb781e30eced913c20323aa3f86be585d4cce7f556abd2c2a0815bde87b775;
 0xa877d868ac293ccec0f559d48e3dced60c81fef80ddffc8f70905664b3bc0f;
 0x1d635d1267a513c78be7288e584254f53012b3f7955147ec7153532760c6c9d5;
 0x120a95649ccf899fc3a8048ec4adb59a84d3ff5c292328f6cf32ee0c14d8227a;
 0xbcf6e6daea072a539fa1030a61bd0c6f425e9982286ee468ae2ab7bf1b8d114;
 0x1c4a6464c867d43eb5fdce8a731867e1b9730ab208fbe77bc9ca7ca010a74192;
 0x562e63099a7630323f701d2fa312c654a891e682a7e0925429c0321f6155621;
 0x1bb2aca445944760eb02e57360e6d3fae93056dc357ff0dd8882d08983be3325;
 0x210f17a9d928eb4f42cc8dbf8d6a7865ab53bd038180c9a1c9a506a2dbb0602a;
 0x277425a5970de392ade13f6ee3752600050830d3bbea3566438924ad5159df4a]].
(* poseidon_bn128_constants_opt.rs:12549-13934 *)
Definition bn_S11 : list Z := [0x26dba58ade8cda188f49e52fce7167b8f219dbd924d7786b0f98fb799fefa2e;
 0x239bbee0bd0536587314f5429186856d92bf093cb902a7513b11373dbcbf7134;
 0xac0bca8c1a15d53ce77475eaa398fc316f791caa305403407056f9b14f47f64;
 0x11ad8281442fceb40a4c536b728ee79730be6407d603333ba18ef5b7492cdd13;
 0x2927ae7db23955f84264264e7dc4f4015b070620841d9035f54c501d0d4975b1;
 0xd9455f3c59c9ea9302e721c00003feb40ec8231463b84c2d66c403cb9110dd2;
 0x14d50f175c19900cae3eac1f457e2e02218929f5c6548a6e601f3038240df458;
 0x237b9200970d84323901b9d7a12626a3d828affd132d9ac43ae01d5ac3cf618c;
 0x19d66d04ca7851e0cbaccbe73156524606cba6bd174d94bb79d3fd99da05a2e;
 0x2ca5d1e4cd8007c2a6e745ce9d3581c2661d28ebcf7b723bfafdea4a97004061;
 0xd54ce53ed8160546c3555b48c6dc1a95bfc11a529d863ef3d6d63f3799fd407;
 0x2c21c6df9e87d0942740cfed6b692c5e4868b781085a292f505a9f53e2969b94;
 0x6351ae4eccfe35f6fa2f0e50faf512ebf3bdc02a9b61fc2baad2e18c4c7e128;
 0x1c86e871f69f568ec2e47ce015f7b324c6833ab9fbfa2013173857efc040f95b;
 0x2175813936c314627ae23d64f217d0725097891f1b1cefeae407bbcddeee09b8;
 0x2ec44113a689ea96c746225258ebf92460b065c25e979e5bffbf0f8590315eaa;
 0x2facae956086465c460b678df8d1a10bc8256e85fe5a3dba26ba637f3d4eeb94;
 0x1865d5f9b9b920317a5751591a3275d233aff5b7f6e6ca7c0f6b2e3f1ea0184a;
 0x412169c5bd61a200567219a93b8df6b4391fe1da096b22755680536a2173411;
 0xbef9d4f49681702d6176c94ef8563f7d1cd1556ef5adf986cd9dd6402456513;
 0x10c7e674a66fb25905751a9f355309c0a6b4a622b7c3b29e93c61f64d95d881b;
 0x26dba58ade8cda188f49e52fce7167b8f219dbd924d7786b0f98fb799fefa2e;
 0x1934288830ec4d6ef05046f36c7e664fc0790fe76e390dae265502624f3e6764;
 0x21fe8f4f8f4fa08615bad7638ab88a92cf8f0a6f9e3e695f3458a459fabf9a8d;
 0x4e0a4f483d51dd00d1062226b3266d95da5866968c6abdb721d96f8f7e2bb1a;
 0x2d3806f1ea209c26c7b3fa95f40e8d213829e28811223aeffe523cddb5246ea1;
 0x5f7a9f8fbc8104008bcca318850c76b19c624671782c0104a04b1b03c16d792;
 0x1c429b4f17c25e0c73fca45ee8f69e5afff9bbc21b4648ec497276a7366568c0;
 0x2a5f492892b38ae10a0615eec76d2f514c9f3251000383d1d1e13a90a9dfe059;
 0x1eb8bd92044de59e84b8ff7e28347243a0cf0a665dc38be0a809245cf2632846;
 0x65ee5b5e74d35c9e411443393e2462959a11fb9fc95bc1b627cd0f48429837c;
 0x10829a880633680e7078e1fe50cbbb362a20d7a313647297a99dbdf6578bbe84;
 0xa83ccb34dc841eb9cc8d2974f083c61a9d9f162d6169db459e0544be9935d3f;
 0xf8f126cb3833ae566d7020e8bba5f7ee02525d4378d81d36730f97ddd2c358f;
 0x2783557cf3c6a0b59926f5804752bfd7de101c1e831a4ad421b12d2ec9f7bf24;
 0x91f200acb6c0436b64c4425917f2fa4c6373133a25ca40a19a28cfda9b219fc;
 0x1e4a28170c7a5034f70a700fad1088648e97a11fb4856e22a5239385099caaf2;
 0x29d63ae313de07d1dc59205c4b29f8b95baaf7efeface383982252f1173dfd2;
 0x188a2d62c5e3519664418fefd0fd0f214b101577643ef5674cb5e5e4d69bb7ff;
 0x230324a35fb7ded74a04c7fd4cf7ee0f68cd8851e1e86b5e4c2d9c1857d2dbce;
 0x27e120b07d441aa2864beace6201c4aee9a06aa4357fd66ef765c6f10b3d3c88;
 0x2d6a0fac700c78ef54b97bd61d43e88b5215f352dc6806201f3e32ef06a1dfea;
 0x26dba58ade8cda188f49e52fce7167b8f219dbd924d7786b0f98fb799fefa2e;
 0x19214ffdc30bd79894098fd3804b092c50b04ed072d36155e2003204e1628efd;
 0x2f15bce2fbc19f00682f8ef66ebefd1fc0a67d43e4255f72ff9ceda492c98752;
 0x215fec7c7c775fbdd3bd2317d73399873ec497b6dfcf434c606dc22603b41b05;
 0x28965510c52457b2b0d9e49812da55f08028f23ff9764622f2af19ced2eb250;
 0x2798d59530d1d41a6a311e90c9c37f0bd389a39737394a11829181d1f26c4988;
 0x11542d205011b400201141b40f0e818051b0a983ae9387786906bfa71cdc1f5;
 0xbaabe59e61426a7f5ebc2174ac06d27ca7854ddc67e51b8bb9573911387eb31;
 0x268937a0fa2e75f79c04d9f2aa6cc56ca52f3c34352cee551aff2b99eb953a79;
 0x1bc3e33a03e620069e915e78112c4b39bb36f9f3ce5d75e9d51624f0beb1528a;
 0x1bc41b054898379199236443a43315088018c303cfa8760d7f679149ed53d3bf;
 0x2ee37960ab5cd93080139be75dbf02d205adbc6887e96d278ad3e430a43c59dc;
 0x1cdde27557fa9f3e2540dfe7deec2ea92d7862361a4a7ada6e4b68f2f3b4e867;
 0x2215b23457c72fb4df6cb05ebb6e695a02c0c7fee8c1ea4553d130e9ab7c3a25;
 0x2c0a94bae0c8d81169dc3c1b3efbb544d16fcb0a11b18bcdc68c4b6756c1816;
 0x9c4335fe7a502889970a7670ee8537837526594d94bee1008d51506b0baab6a;
 0x1d54c7fab67c393a91a61e0e2e38d5b7ad4e43f646286e64e31704c748ba9db1;
 0x300b58fb17814ea816d0f7bcd9c3aee0c411ef4281917824180a3547f8f41b73;
 0x27855ac29fa4b1abf74da38a4ce42de382834c90dceb506eb1f1259823889f0f;
 0x2259c5da3d87b0a065ffb5a9fd340f8bc3ffc41113b77bbf66a2613a03b04874;
 0xfe5e47f909ecf12bcfb1e96d2f6a5f96e8e95f7091a921d225fb33bace62388;
 0x26dba58ade8cda188f49e52fce7167b8f219dbd924d7786b0f98fb799fefa2e;
 0x2cf624bcc1b57941669693a6ee517fe56dcf7ae5f8dc152456d68cd4c839643f;
 0x284fc4f8f116661b9dd2690be9979691b33a6af7b521472a36c154c5ecf94b54;
 0x15f336d2348dd647d17cffa8507990c62d9355d63fb15fb7b7181c0aac883733;
 0x2b097ff93c8883e63327f4009f9d0ad5518484aecc9ebbe42ab9ff386beb2d09;
 0x2b0e0d9bb68edcc80f960a98b948c1a172236a4461c5f13d2b7d1fb648d1cbf;
 0x21fb862d3aa99493e303f1fbecb67e2ff829a890338ebf642b1bcebcdd3eeba6;
 0x1d742e5595d6548a4e5cde3fa1a024fc04ba950de76aeef9d094ef3a6aa80e01;
 0x2f00e60ddbc4d8cbf208aace4afbe88c9025e161a5b3dbf495f11520fb314713;
 0x937367d77f41edb078d7efd73191a38ec61b2f7ea633aacc172fc808e6e20b9;
 0x20cc21ebecbeb50a3e7b6f0ffc58f95d9bd9990c8e0cb2b51bea7cf817e0501c;
 0x2153722c6eeac70d60abd76aa40279e600a739a3c24b2d9950e7e0d08468ae60;
 0x170429ceffee65277a55842cc1c6089270d658bc86565a5618a4e1156546957e;
 0x2881b86019bc624704431bc3ed315ae4dd4c6589118f6a60d920f1c4937696a4;
 0xf75ac5249bce09549072133d80f299f5e194bd34f820433eebeb5e020817091;
 0x9a487d60d8c77e941b03d1a4cf0e9a92b8328bc432b437318c0bf096b8c95e8;
 0xc4c7b8be9ade992204bed2fba9ab541af980a47b389cccf61abf5353640bcf0;
 0x13c6f29a13b808abc57cdc98bd5b32326c0d37640b2b1c58a988c50dd0a66e90;
 0xdcf77d7d72c03c43842c43d906862cbfa78b60f89780b9385a2d81e316d96a2;
 0x1af4ecef93add6d17e589cb3e93a7240f2285e18c1882da49b0996fa64a5f7d2;
 0x16500f1e2eb13aef4078724a58c869cf7af3bb0a8eb50236c3e2463ce54554ec;
 0x26dba58ade8cda188f49e52fce7167b8f219dbd924d7786b0f98fb799fefa2e;
 0x2fb22f7c0dcc8f0710df44a538564fa4835d8297a65bd032793c44d1ecbc66e;
 0x186c3597d2e95409839a6577665c9247c61d1d4e39ed975d7eab0407571a3cfd;
 0x268a806ff91bdb7848e65fcffcae8ab72e771dcd9e44918bbbf961d024c4e780;
 0x22a72134e6b344238cfde291a9c27c8d91a7ce8ca75efc932a3ac0fce7229618;
 0x2f3d93275b7e8f80483d94dcb59ecbb02d578565b6f3510a3b362db38b806990;
 0x2188074227737f56f2ed000fb0557da0fce247b29e3fc1e94c782497dfedca5;
 0x2795cb6a4c716bfb133f5aa5e413d7ec0643932100bee8003e35125e908e92e6;
 0x168669f585369a0e9e1e1800a4a64e59198f67da9022257ae38ed2dae2f3e890;
 0x1ffa32112a81bc68e5ce9b45a08becec9463ced766f99e3f70c5295bb287cf05;
 0x24305de92f0bb0f4bf743d990721957c6147f9712ad12bd0970d35471343f1f2;
 0x2553d6aca650db381e5a5cff064f3ae81d10dcf60fdc1b88d0b4a182cc3b86a5;
 0x2f3c1b421f6d478376b135c9d120317b4290120dc11218033e249e6f660738a0;
 0x245b4bed81074004368bbf0206d685ea4aad9ec2c5c27404550b134d60301858;
 0x5d189b960a83b4cd0a7038f8a5bb9fc4f86a1195041c3d5aca8020cbf92a015;
 0x2842fd81790b045c74803f7569b25eff6c992c2e571bbaf1cf9917f9dd45eeab;
 0xbb806b253f4b014dac7ec4b9150635e5dab4505e9194ce2046af74db06e6fb4;
 0x1130802bdbf1ce4ad31b52a3b3380ad274eaec3ad8217a45429e7b8bf9f57291;
 0x236b083a817afa7114155de365d7157d5c45d3ff29a665828689c98c118887c1;
 0x2b1118c83315eed11ca8a5128ddb9fbdfcb0944e37f30f57ae91e81344f76eb3;
 0x26c7bf0a07d43c11dd2460b3d339014666f2ccc0d6f926dc5320693ce6530213;
 0x26dba58ade8cda188f49e52fce7167b8f219dbd924d7786b0f98fb799fefa2e;
 0x62d864c511b8873334e836d12eb72f7552810f28b4b9270ea837e9118dd92fb;
 0x25587eb09d2cdb6628c520a7111ed2287f8ef7d5bf15e7ff0d9415616c14beb9;
 0x20344cc75c81860502190a88a9753741eb82f1355eff6272a687af15b3370983;
 0xcee668ab7cafe0c92f12586b73566a59fa7d9e14624394bca99d6fe9e082c57;
 0x41098b20212f04cc7fed3b8aa272d37dd719e4304f79301d4b7ae6efefeaa72;
 0x193870bbe39e62100358a649faa3ff6f81d1915da932545ad5ae3dd951529dd2;
 0x1d86daa8ff221daf2c5910e1b9adc7d1a320575c43ec64b6f8aca53cab46f16c;
 0x25923c7c452a59c736795ec2d6993a2d27a18b01107b018164dc30ffc6c7e36d;
 0x166f933a262efecbfefd5d1218289e8306130b9b3ae903564812aae0c357b73e;
 0xe710428c953a764b43ffbdd166707d10a6a08ed48aaeb562ca63a19b70c1c50;
 0x14212cc175586510bb7e0107b7e99a1add7be5eca7445e35b23a9bf5e9bc26b7;
 0x7922b817e326535d89ad077f917aa3f5ca180e982a89628502299515bd1db4b;
 0x17b1b0209846528ed24450b5b6910c3dac0d79a35c1297c2e0ad518bef18ec2b;
 0x1fcf8f4d3ba39e14ce346b78e781ccb86fa80a2c9b91b53b2b917d32201bb0e8;
 0x1328e374326bd95e9a909683113443b309c75dd559c78e48589f91d3d667fd7b;
 0x186b0b6795393cfd4a4961f0d34cd0f86d491ec8859ed1f39649f4a77d23d0be;
 0x22866b41e186a1a499d3862f90ed2138b052753dc15fb43f71d071fa54e8ca21;
 0x1a21712b5674e92a8fcdba2df567658a78f1c6409972912f59a3fca3fe10010a;
 0x169c1593ef30d80f8f26d4c287a790cec8e41ae53c718b5aca62baea5e7a7f63;
 0x10cfc561fd16648777627b6f289f95a96fbb95ecd84ee59ed541e7b81edb4d69;
 0x26dba58ade8cda188f49e52fce7167b8f219dbd924d7786b0f98fb799fefa2e;
 0x2f44dd9b3903bbe40ed4f0a14f06a691510f25d683942e3fede322c7f27db564;
 0x1be695baecbf688d6618060b85965e37e50ae175e45f09704d33f2605ae3ed6;
 0x163a43dabce2f70ea0d35c105ad54d85eea9b0953d028fe4e11c604e8b5e69a6;
 0x2956dda14554b0ab7db32968d172b733bf92a1efdec6320b0c3c9114da88bb7f;
 0x10f41dd81a27925bd837952dae5a9c494dd285ffa9a40d9ccb17d71b9098dbad;
 0x280ad3fca7cff3b3cbdf6781f295bc0ee70275c10a6409b7b8c99157753013cd;
 0xf12826ee6e2f4690c360410aceaf27726e64d0c6d39bb5eb8bcaafdb4266aea;
 0xe9f48dc6fbc4706c6375c87d3fbbce3fe78427250b0fcae92e07890d3fd942e;
 0x1c7a967977120a43bfbfc9351f2ccc84a2e1a2b9f440867e9d9257a1573c1f3f;
 0x19d6f7ac7339519c004c1893c15b90c6b50fb09410e9ce523bddd88aa3dd3d75;
 0x1b92f3e79d7fe18dd5a8a7c74fe697b800921cb181be388e65b39cc8114b32aa;
 0x22998601081051242be4d99570e60ca7ff816acddfc3605f463a1221b11e097;
 0x17f81154836c1b89e026090ab505be76f2da2674a77bb65196f29123106f15e4;
 0x27b439487ca8865a03fc7699acf9c74e7589ec1282fbb0eea9f6fc4215fb8d5f;
 0x2ebf049a07d92affe4877c3e4faa5bb176d58c7b514ce03b85ff8eea6b17011c;
 0x14b55de484bf2eda58a874c907aed547c35e892592a8704e330457a6927eb9c6;
 0x2cf300af23253ae125944cac6565ad837e1b4857ac3b9003951c414d167e4622;
 0x11a0cdf58417864a0399eb08e3af0cfca6afe79e831eb14c2c7e6ae904ac14f1;
 0x13f038e1602814d23b07765cbcb44033562f7c8192fd2e45ae1372cd3f9100ab;
 0xa324aa4a2273af5015991b7e47dc180ec2c6cdd3afaa7ca1ffba46e4cb5a78e;
 0x26dba58ade8cda188f49e52fce7167b8f219dbd924d7786b0f98fb799fefa2e;
 0x2335a58b2a4893de3bb776a21abcc6bd01746d21d60dc99407a58ec99ca5394d;
 0x3792e932762b5353053cd478898e7067fa59e0aa0f97bb5d075b83e7f1068b1;
 0x171f0973baffed9d21be47d121de7717d9200520579e674c345741ee2c0c9af0;
 0x1ff55845a587dee8b90bb11b2490e5abb7bacf3963f7739421b471e1f3cb589d;
 0x6db58db2db6fe63f54d05adb8aeaa9cb89f48d8248e45d647b9148d1fd202bf;
 0x207a78198a8af61712585f9e3aa8fb315320232612f83529fb1b5892c30527ab;
 0xda95af66e6e0aa2f1a0ac71fa29c74d75bb9f99e9458079fbc43fcdddfc1be3;
 0x244dff1663f2935bea98c07d041221ff4b866285a999a04e7badb7932a91e7ee;
 0xf1666c15799e77aab89a2b35be57b29222ba0bcb4c690b05f144b61c61099f9;
 0x2e9b5aed7ff481e79e49c949604b1d7dc241700cbf5d6e7748e13f74f30e5ac1;
 0x16834fb2ba464871b1815f1495a872d63e79504d5324e80b34adf43ca7a68908;
 0x143a59fd2f1e040c91f7230be230101ce4e6323eec738f2906357464515206a1;
 0x43dbd8535bb232d99c3535dc3d655a963324bf70d1a3274e40e64393030471c;
 0x7b166c254454f4b8d6fb5aa80087856a5f3affc248c814703364663f08fb766;
 0x2047d44ad52bb40ba8e9f31f521339de3e41cbc7ef94245e7b9c82e3d5239f2a;
 0x1e23eadfe8cd5443f15abfde942370f48254cf355214fead4e4d85a0722e3452;
 0x1371b1a0c0ef71a90bf7c32118ae414f81d593f95f864cea9a1b60607b1ecba4;
 0x29c9b03f3f02faa3d633b65dbf083f24565eb29e36ed1eee4bc5376889b5a0f5;
 0x11c0d488111b7ed7b91e9be524819faeb74d64619847d9e96cd916a50d17311;
 0x2d389c9b04a7aaa0eba8940233e3630c8b98f061a7565a7d5caaf28a3fb77307;
 0x26dba58ade8cda188f49e52fce7167b8f219dbd924d7786b0f98fb799fefa2e;
 0x12e351fea34839d65253cbc1cf32d39e34b1037767f5c2b90627d90d73d3bb0a;
 0x2e27a42188a58299c9d8044c410844229d17a11812405d3d35537974652ead64;
 0x14bdf13946d48ef5a08883efab512ddf10596421d031823284426fe729475367;
 0x9a068a755057ee06efb7fd6667bb62353ec9cd08fbc887cf5f4fcb2ccba098f;
 0x519b4409ec8e3a7860ee5c90956903fd27fadae89854357f81cf33fee0e8cfc;
 0x2e810ccf1dd607ec36f7ab647ca38d42710eab334142a8398b5da402a5840054;
 0x233108c004672dd480bed52d6f25174cd89d1a025a60ff6888a978503ddfd96b;
 0x5be8a2527d11c6c19b0e5c5a0e75a0b54c5e21e68c1850494e4fe7784cfcdc8;
 0x1c4d74ec5ad43fa3f3f50702399181ac51aa69d9260f1b32fe7c1ccbc232a0ec;
 0x2c98c881a993b1aca5ee9e7f559ccdf305e696156bd0ad4515afcf5bd168de28;
 0xac8b8f35d94988510c83febbd4925feedb7115380f6c4e167aaa9ba11ae739;
 0x28b2d2b745647c152ad021d9e1e7e87aa179c49626348fcd0c29444aee62d71d;
 0x232dd2860f628248f1b55a1f1b7f4205d5d8c86139e182b31518eb4fa1eba077;
 0x2d45676dafb1b4e4f2e5326ad8f2d6a382ccce3969091d48ce0635bccd9f1f84;
 0x23c9bab33c8ca65ba9579f56ddbd8967db1e9e3530889762e743a32277f4a56e;
 0x2e3f511a8650b0493951efe1029eac8006bb5d44f214508ae0870daf794eee04;
 0x1fadef99b87a98d042116dc8d68a6eba75609dcbba24feceedc576a5f8c56ec0;
 0x13b1c1adee57755d2c3da15fe50fe6332e5d5c5b5929c5ef8ea0387043fc156c;
 0x22a338fe1a442d6afe886f9cbcac11a4f7f9bdd77fb3a8b78dc8368a5613da63;
 0x1c069ae1b1241b93546ccf9d02a0279737dd1065e075da8cb88190a71fd2e887;
 0x26dba58ade8cda188f49e52fce7167b8f219dbd924d7786b0f98fb799fefa2e;
 0xcd4ceac7e7f2cd68f2aadd77f8a89a35b39e6fe20795800da208139d3a12390;
 0x1c2ee3595af8de51bbd5eb8567f18d3e1db383bfa37973f87cb36e72a88c81c0;
 0xa7c2fc763da1bf375377589baab4d68685a7d3d23f08d106e5326eea97b0333;
 0x1b50d5a9d6db07dd3f14eb594c51c1cd119a0e734a1f2459cf989a47e557359a;
 0x30161bd3b8b78d824bd26c4ac8eaebf0c3bf2ac2a428c274b458406cba4799e4;
 0x7274702734590bfd2fa48046b2b21cd261a226526c126dc9841a00c5b74747d;
 0x23064c35e504e677bf3c438b120a1c02bd6e8edbc70778e46b7e5f00d1633597;
 0x7b4b8fcf8c2cabf527256c84aaccb348d19a3d8e41caecab110f3dcd563d0bd;
 0xa95e011e6866c8550e42efbedd76eddbae2a133a82edd6308f4c8d629d42964;
 0x180517d31f2656d1cf425f6aaae0751054c71dd9df0a236c6c049a3b33cb4da0;
 0xaa7c1d96d99bf95d733baeb6e88f4a8536c1f846730f460731b2074f534ff99;
 0xdd0dfedf6a1d0e3368d8f79d159d585f181aadb93429e0287324179d1e37e4b;
 0x572df3598f8791d83d3401b87b3d6e6b3a778a9a4a33e1b6c24746070a3bf18;
 0xf9cb4e73d3b6c128f629e12d409ecd7048781ea825ac98c564f11fabdff8d14;
 0x1db3c7279ff54baa1b579a2d00acce27d1f80dac5da005ac5a50052cf4ea6143;
 0x2942a1875714a0c00d3b2d20dc216f466bbc448af3a63e05aef6353073503b0c;
 0x2522caff7f2a2bf9cdf836ec99ab832e3f792614b5cef40cd3e9f00c9b2df92e;
 0x1cc0d08465538de8bc30077a0fca970b6bc309fedf4f48c79ac7ec6ba1f4a6a7;
 0x1be86dc6dca9d90b15bed5bf60edea532e1510007055893ccd65741037c814b9;
 0x2ecc73f82062b8a6d91bed0d221022331d55436042ce722797c1ab25f77a9f2b;
 0x26dba58ade8cda188f49e52fce7167b8f219dbd924d7786b0f98fb799fefa2e;
 0x1e954a04dbc733e4ad843f23a7f402bba126324674450eed047e158c4342f75a;
 0x1bf6934a5502144b995fd7a26c8be4f9507169f7d29691e460277ce8a06886b;
 0x10a770647e157ab71fc08d6e560bfc21954d55647c32096c258e244fec48629d;
 0x2379fd0b045b1b43d59bd7cc2760c8bc5055f3a441fa6288c84a3c7c7488a566;
 0x242557dd84169e034b9c9ece2f2dc4bf4f4b3520b2ec0c62754cdda61aa13759;
 0x24d0e65867e83cf7f865e89a44c0fa4f31df8eaf20194cc9e773188322020fbe;
 0xf08e39c0aca58fd66c96bb21691c0b06fc564cc300040ffd985b0ffdab6ba89;
 0x1c3119af9b3e6b5bff8c6915f68472b22cf3f9e187ab26981b86c3e90dc767e5;
 0x18836e6cd384b031b1a462ad8d0a11c34910f35baa8a92fb3e56f9615cd702c0;
 0x10b2bcb24625ababda8c1c7186890382b9ce83854d7bc4f2460f30d706a4cb48;
 0x237fdf2809ea511ef064a7c036f29c1d555c0b32dfd257334ff535fe42cd81f8;
 0x21b9cc4ec4c0832479f7cc5e15b4ad4722477a5ba013d9d359d540afc5737f67;
 0x258e26b354d7ebe2793cd3fb7c3bf6d170cf9db55cda38f57158d9b865298d8e;
 0x1d48d2d440fb27a8ed1fdf8212e7b34cc231bd2d893402412f96f938165bf3ad;
 0x138fe1103d55fc0267df8380c50775947493bf88f75a73d783b21caa92197f3c;
 0x1edf94fb5b430b784be783f8980634ad92449f73e33c25e9f7d63f3a62f30fff;
 0x8eae1383cf79a2ea6482185fb4b72345ca8689c16e67bd0a253eff22c5cffde;
 0x761d160fec46a8c06e3e055d34791703f805a77bf30042a43b6f04e35dde41d;
 0x2e23c612794a7f8cbce764b156e02bc21f2289396e30ab846536239dc8938efb;
 0x1539abe4d27172e4ab5380afc595d723f9ef3fb7e8063705f9a07c40a67e372e;
 0x26dba58ade8cda188f49e52fce7167b8f219dbd924d7786b0f98fb799fefa2e;
 0x4d800ab616d72aee2f1cfb8eaa194dbb2bd95d9bc9d8327943da4f45befc2b5;
 0x2207ae07dccbc047ccce5415be0c4941ccd2aa15ffe4f4a8e07a60c0a7fad9bd;
 0x64d711ce20b70d512f1ca107456bd158586fc1e3219d09f3de8fdece43088a5;
 0x56adb05c833c5d1984c7f6bd75b02cfc1c7b21dd7bf6daf1b52522c96978158;
 0x2efc241aa72e16ff31abc7977dacf9a6df53b26217544c53bb87807d5d61506e;
 0xf41fed22cb32a447dcf33e989193fff2157f3075848ed1e46a181128ebb7e5;
 0x169291f2bb1381ce3b16e812c546890ef5ce32c1d768d81264cd719e4e1502d5;
 0x2f9fc1e4f2924d82d17c7ea7d3b09f67be93560ba39f29537ec0c1f2befd4729;
 0x13ac8de14556e9b886de3944edae4c601a01f78fb263730f44f7d9991b8c7e2d;
 0x29a69af8e28052f2c56dc24bda3a5e61cfb3e9c6ede0fdb857a1971fa932aedb;
 0x180e9a2e161d21013486fb8598113f7a280697e89643400cbefd587893787172;
 0x29fec555b91dfa57a42cb368560d4bc471c77a2e236a9d7c9c6aab1b6d1117f2;
 0x231ef485473f733d46f0e2acbfe7e3961d045f30244244ab3bb7165863c1a46;
 0xe6c1b39867e21ef0c630a99754d1a66a6688192254d40492ce88d47e5fa15c3;
 0x2e0a260d61bad61b7891e6306df8b2310d8b8db9232fd1f7219e7fba86597031;
 0x176aa7da52727a85134b313308a4c62994d4149bd6c6fc59d6e6c0f09eac859f;
 0x12922be1b7fdc58e582eb1adc46890c48e10c8550eb8b9b11d8541694ef3a9f1;
 0x32268b4c29827a65066e67d71e10cc978a73e0442bb1c9f67bacc883a3f4fdf;
 0x10beab6538e0141fcfbfa8da4cf3070e69b2b49da1818ec8a9e54757a51b3c19;
 0x36192a82ba9eea93a2f4b1994440a11a556d0d157ae5da57192e56c21c28256;
 0x26dba58ade8cda188f49e52fce7167b8f219dbd924d7786b0f98fb799fefa2e;
 0x34207380baf33709aed4bf2cf5d387a15f30dd072028305cdce60c1737ac627;
 0x1eb09b8ad28ff81a7b21236652960fe9bcdc84caa6b21549da93a72d92ccbc8;
 0x2545313ea42693cc8c0d6315d8bf240ae624d66f60f6f0a356a105ca6a7220bf;
 0x1269b1b6e6ffd9938f8b4d7c4ae3c7feb7686b9de06a6831fd957cfc3c3bf7b7;
 0x281e84c6cc599d853fcf8ca0a606f70aadc893adf4a4a099364b8c052f169ab8;
 0xaeee3f27983d8e9eec8d6873cb1cbeb38c3d5912c74066bd0dbc559edb12c69;
 0xfdc47ab86a0a3d8e9217faaee18d9b5b86e9d64deba55018f355d3b9a36b6a8;
 0x2c35a627b5540525beacc313eb5733cf97e1ff3ddb3f9b4e8b4f063b686d2e12;
 0x332c87526e40afec8b93f9735204bcacd4c6431c60b0b3daab4fb7f120bb301;
 0xd5d00fda5d7c9aca26fec63f2565a7b64fcb58a67e7c29a64d0e450fb2b956e;
 0x1b9cb4b5f32f1ba38a685870d7a5f7f44370b9b0e4c12ed349fdf28de5f49865;
 0x1c63e1e8141a5a498ea10713d8bd8ebc5d61aad6e0ab492baff25befbbb26a26;
 0x26ab3869c42b4e0139459f133c996241607f280672e2db244466d3e425c50fc5;
 0xe8a1f3050352b43a39fde443e466884d09945cca09f31f043ef872a85511bc8;
 0x51d4fe0ed70b240156e4fdd7fb3351d55841c4fd97d1a4fdfe0910932052536;
 0xb0a1015d5b0b6a572187b97a4427f7e938485515cbe32e0016d11de7d6bc760;
 0xfbfa326f445e39a06bdb999832f75f80114c3ead6206339d7a5edf276ee54b4;
 0x9ca06de513672e4bf3625d0cebfa2286a44737b84647df4154d524528e82750;
 0x281dba97e7243b1d3437c626fda37e43c95cbe3987bea3be9d19860672ed4719;
 0x26de57caaf86357521f470a899d072f52a41043ff0bf242a845b71b8ba0dc6ae;
 0x26dba58ade8cda188f49e52fce7167b8f219dbd924d7786b0f98fb799fefa2e;
 0x2fdb2e183ab509617feaa6e075cb9de40e5165621c2a4266fb894471e9c1946d;
 0x6188498691a27faf8c8f4a2b3425dada1a87d06c53861823232acedb25d6def;
 0xbfedca0dd5e506b091baae85be99b391358740f9a7c6578c58349f522323a18;
 0x78b237302bdc513c9965872103d4588c8b19a002b784ea4217fb04455d3133e;
 0x25f15182a955582df5a3f58d36648b5cdef4bbbdddeca93eae6c94fafb198305;
 0xa07fd1f3e8a7d1f026578e5999ed3c7d63d5bffe07ff0c96cf8b23e2e0f7820;
 0xbd64bd942a57b8c209d7602bf222a0ba5c84251dde43bc098e938f75a0b678b;
 0x2cbe62c979e608377112ff7050870162a94dc68556270ee7a66e65305d1b16dd;
 0x9da1c5dbe788effd900ea877c8f099af1c03e112300d9e070e6c6f8c07b6a36;
 0x7981ab3c73beaa4e1e775d4e4abce3bc86eb79168d6f157f9cadbbc30ca97e5;
 0x3dced6534fd07a1107d6c54510a07f25c0a10b260c7376bdeb10c4e768d91a3;
 0x988db118a1974fdd8b434549e13ec8654644298f3388bac401b75b4d550ed76;
 0x1deff1662df511afe108d5322ab104e70703d65b729c1dfdc2bc74345d4170b3;
 0x3a1bb1a92965c2cfce4124a8abf82b54e3ca37474728dfbe965f7e04fae0f1d;
 0x281f0cbf3e036b4ae183795116b65070d16e37621d83b3d88ae69e98d8c44d83;
 0x15c4576d8475a4291a8db61a22db870c56b013d0849b1066386e859b996d9035;
 0x675b067ff63a96141eada800b0ad12de8eacad15c7f53e6241feb94cbe87f3b;
 0x201aa00289c06147c4b86a521818881469fd0e4f91be7bb271afcaeb1037fd56;
 0x1d590ada5a94b49917ebf20bdc55e03d0362b3f719aab865957c76b84a4413a;
 0x6011f23c13d5ec3df59516c72371f2ea28e930f73189337762e3d4df3f7193;
 0x26dba58ade8cda188f49e52fce7167b8f219dbd924d7786b0f98fb799fefa2e;
 0x289927a769b163dd67f7165490a1a4d9fc3b8ec189ad4fcee07368a3e75a7573;
 0x5a0ca87482e1f242157b180cd02fa975c72bec4c25d87f82b7c53e3a6830947;
 0x2b328309cfe721d78f7a6e8634f54524c4eacc42ef998093e0b77c24d5ff9e80;
 0x1ddfe1d1e5e9458ffb1d342e1b99a73b0083613406f932d7abadc8442204c061;
 0x2da94a9b44a2e2681f75ee004c7d9cab662ca66c1ce78fb2ebd617ce449ee43f;
 0x1efb5c3e6f22f498ced2f4e63c366b9dab0cb06adc4e92fc3f868709cdac330e;
 0x464f0cbf6ac670c19420e79606bc447e259f8b203a4ba15f72ac220e853c884;
 0x67e3c61a95e28c26b5628f679c7843e1e042d7841a670219194e99dcc618f82;
 0x2d1ec49939d788c853f85da08552dd458a48a197cf0b023157ad04a49a72a28d;
 0x25c69cc3ab094c56e86147024ede9ddabf71ddb294ab37659e9b2be22dd9e289;
 0xbec17f5afb43e6faff2a6b09a02eed8455bdacf16ca542ccfcaffb119ea2c0a;
 0x543caae6f7afe71cde9b817c9a746870d2cc62d2e7e1c6fe7fecfed5a98978d;
 0x142025c358454da1e1cb0de99504766fa297d1f6fc62deb14ae0bec430d58087;
 0x12b565ffd06708fd98bf8353991bd236bdc518c7fbb243fb05497ec7ae08939a;
 0x12f287f0f3686375ba8431deb018fe9c28382d0b3f6d42c0c8bfef68b99b0639;
 0x1b97a4c6e3b1340d563513c29d704429098877af661ac3d14a8e5caf2ec67622;
 0x1160e192c3592d85262513d57850fa5f8ab05a95877afcacdf616cf742991fc;
 0xde9cdc2af5b4780acd93ea46be905a8530e8bf89a97d41041cd39fa90975884;
 0x29a2c79a9dc7c39e8ae57cc00010cc2aec866d9106a8f2c0def35fbc29b304c3;
 0x1b39fe57a5648b6b19ed40ddeeda02db1a6a0590bcb4ac75d52c016bb5f004ab;
 0x26dba58ade8cda188f49e52fce7167b8f219dbd924d7786b0f98fb799fefa2e;
 0x2eaafd2a94018113bfeca9f6f909c380ccb8c99788645cd8169586e66968a6e0;
 0x27f7e86e479c9eb87a4c05e80dd23700a81c2e720bf0e889a6a5d5d2f2a385c4;
 0x15fd4d2d4de641f8d803e4942f19aad8bf6b01a1b703dfd0f0b51acc263aed92;
 0x172a8e725dd29bc4e28ac7a67a7f86bde15c58b1fe2f87bb21d06349bbf6a858;
 0x11820ecad02878ccdd901bf88011203539ed7f14c17edf151f237b8f3f357bf3;
 0x157bb0ec622781bd0485ed79ceb944a23eceb119dac4f88f3aa4878f082f60a;
 0x1a0c8beae4e98f3c36307ba5a8ecb345cc5ff4d33963002e42b36242c7ee6f11;
 0x19398691a16329089e7dd608cd6ea18749597908b9885b7a3818feddab8737f9;
 0x2c92297efa4d689e784dd5ca22480de59b1ee91203331f44dc2c33877789a888;
 0x2b05adc1b6cae6f7b6a2382c527c9e486e825d2f6ba1b1f9aa395fdc793e9bbe;
 0xeac0d420eaa22d35e8f1dcf344a5bf8c05559171f5b3d8490e7cc58244b619a;
 0x1f14c4c41d337360748c3f37c2e1c72f831a6f811893d188902688b43ff7ba89;
 0x2dff4909b43986a532997bb6881979cc68bcae8e01bf9caa69389dd064a21288;
 0xc5cb5da369f1f4f874bab1f706b652ef2c50b297b5340f7f6c0fad98f6f41de;
 0x13c2c78c6e2b39691d5e7da33ce14fb2cff83ce3577f1909d2a9b1b73810067d;
 0x8bcbec544fb37718da2d30fbd757ca63187f342440c8052bd9510314f6fa22;
 0x12d845717c2b2c79c55769851913284ad56f2fe4ca359ee39e569cbd52c44b74;
 0x10c0c4538604fe7ad96a08ea533aadf5307c89534a51dc4d958f769a0d225963;
 0xd2a590e3fc8aa2260656e13a383726d6490425ca80eac6481467c17f1050265;
 0x3030d8c3cade8438d664d3ebcb0b0889f57ffeef914c655e50cb68ae14c2f283;
 0x26dba58ade8cda188f49e52fce7167b8f219dbd924d7786b0f98fb799fefa2e;
 0x1ec953704f6bb2e359a38b99d230ca7a4c8eb37e3479238a282da769f0425beb;
 0x1eb6626b17b9fe129966d1ae7f272514826a0bb877d54a3a7d6fea8e46c94914;
 0x2c31aba1b873c7d14d82ed3b033e75b871a7264f4ff1beb961a532d8a3b50698;
 0xdb6e1d43e7479d449ea8e0fa42ef14a41cc880de1c7699cab480edd8a79ac7f;
 0x21d8a97ad31f1192c8d87f08764c4f9a8f6c90940a6d444d922151dc812f4275;
 0x29bd140ba4c910a6d297d316c9bb12f3a67ef0acb14f68af7afe36dcab638ca7;
 0xa61d2fd60c57f574e19261a4a5f15b98af58e10836f3175d48fa7c361e98ec8;
 0x1d593a571d4d07b6b677c7c987263c4f9ecd5d264071a49e6a65a9fbea46da81;
 0xa764ac4206cae37430c7e6554f45e251bf3a4c8348e686d3103d44a3a53b565;
 0xfc4c56a0e57f381acc4c3d8ccc8f9bc02332375f6a47343896e019f2679a7f0;
 0x1c34df18abe2bd65c68b1e40a634311aee1429b49de0ac7a0ad890d434665a9e;
 0xfa890b0f4e407242899e2812dceefc2e8e5daa8d41964612d862b182fb084bb;
 0x1df4265e4bcb86f8df10427976b496708404d3eb8370ffe06d2fb5eb21597ab9;
 0x14b74c5d557ec1780f3a0409c6d53b3b97190734d6f48b60ea42c5d54c194ab0;
 0x112e82b702e99d25a62f79b82d5f0620605381ae21c311eb3b9b6407ef712a27;
 0xb22a611ecdec54a9e15a98fbaef9be8bffe8c6f65b594fd8647ce0d03b1a819;
 0x13552102754e83cff6a90cadf9a9fb9c9c4704c65200cb87144e7bbef93823f5;
 0x90872282ea971f0593587dc8e0f8b7bbdf36a1a762b9d000353407306f7e732;
 0x101e86c640c3bb179c0805a76ae6f326efb5ce0c7b584c0aeec2ddadd727c97f;
 0x17a1236e80618f661c6b0932b1332b40802aacd5fea74c8575ab87a38bb7debb;
 0x26dba58ade8cda188f49e52fce7167b8f219dbd924d7786b0f98fb799fefa2e;
 0x12398407948eaecd57ed99dce52b4051d9a7f862241f682e26f29366b26e8acc;
 0x1846ebf17d453d52ee6bc5f217abe6a0d5aa43084af5ced178a081ae3e204fa;
 0x2054f2993d487237bf6e4a985c3abaf3ea8f0578ad5eb731f94a0dd533e846f;
 0x1911b97db6f1c83692aa3a44172aaf316d863adacf721463e9b34e93c3499d5e;
 0x1e7f11887082042971c2cf546c3fe7031d955ea7e371cff4d270e56aeb0a162;
 0x12170e18a97a2c89b045eec5263655c47fb08fdc4622c5936d0b9d2aaa721cfc;
 0x209b3d0342a6bbbcea6b3ec256daed1605bb9afb9adcb0ac9ff0d409751f136;
 0x6144e781f4197e7402726ed1e01d1a9df01807d8f679e5bff27837902bf4b85;
 0x129444fc0f4808af8a64b51d94d9be48764ade198781acd87360efc9dcc7a8a5;
 0x1f12b62b42b308fa0b8677bd62e9b5fb6644cffd6ae43eacad6d127f8437334b;
 0x2a1e7df0ce57b7a7c3fcbd73c68791c5aaf538727082f773c41e94fa24433fba;
 0x11ac54cbcf0e6175c34eb7e364adc9a26eea739c22aff79208ae371bfc8b1cf6;
 0x263230c117421eed84437ed926810a77a756789fc8b3cace2da917ee6311974a;
 0x10df3a59e7ec06ae62a749bc6791d1b9b2e7cf0bbcf519f3c023e543514e5c5b;
 0x2ee43f7cbc305d64cddff15cd91b7f6dbc0425e706b107e6b146316a8ed4c433;
 0x15e9ba236c3bd1b8efe4391047d6de8b2d8ebd45ca5912a619f7667655a1b750;
 0x1d74abec20aa969ad6f1991585c09cf7b2e4b68998a748fc84fe304511c6b599;
 0x5ae72091e906e7f9d94e8b5e00f4dd0b43039d0ee9ac1598c3616c86d7ab06c;
 0x2b548c790a449adefc53712a777b2b90bea7061df2f57d337b9f512940bff3ec;
 0xc79e3413149346cf672ce76f5181de7604163cd00c9a5263fec43477ba2fadd;
 0x26dba58ade8cda188f49e52fce7167b8f219dbd924d7786b0f98fb799fefa2e;
 0x3017a09725154c2672bc149b4bcd370771a14807833c069d712618e207531b30;
 0xb93ab490450416ec4a761155768efac5d022a8b3712cb410b78e43826dc07fd;
 0xf7ef4a57e815865508ac5e78bd6ff37c11dbc4bf0773864e943b14e0f79c872;
 0x28d3598fc9de7f8e645588886736a239902008f4c0c54525e1927cf66bd0a047;
 0x178d2dfede02ec9735d83ae6ecb07d875b78360c45d9796753b52162050f2473;
 0x2055e88d1c4873c3fc760261b724a8c8c852b05773e03e4781e03dcd410c878a;
 0x201af7d279732ff24a7300d4a63a327a0d152d481e75701bfb1ae60001808de4;
 0x20b9d7719511885b8e03da08d1289fa02923259857fa5c51a4fd3f6bbecbe8e4;
 0xc0c12d9eb25cf37cd472d0ec9f4e283832823607ca823e3ad30de69cb10bd97;
 0xc413585abc142ff58981d211bed7b8d7fbc6c0538dbffe36105ba44e18b38ec;
 0x1ad95bcc4eb2757c070d732f7f27ca45f4685886ec1a21e6222dd7b99487aef8;
 0xe9cd75323a37d831825a99061f0920e6594ae3e3e94d45a3a33aae620d670ab;
 0xfe94376e19c40263ded62340d5042f64e3708e0c556ab677b64a252de7e7201;
 0x236be50f0fe1b1545413d3a6d2c60cd28cb80b5cecaf301fb32d687ab8639656;
 0x28033ec35e8541ea37b843d7cd1613c7c95de6d6a3c1e7688cc26ac5c0433dd;
 0x186eea9c433f8f5ba4318087295fae6003a63a5250cce25ff3127ceb8ea62226;
 0x1997be30d551c31424dd592c2df897dedf13631320bf71075ebd15dd0eb234e1;
 0xc86b6e4ec0b7673c81e2a33cfab7f5ebdcf740fa723952f5553a60d7866c0fd;
 0x2079ea58606d87fa8eb2de37607a65768044990a0329f877b16141d63675cc3;
 0x17d722901c37847aaa1f74a31f9948d916c880d547bec7b0f2b9b1957ad97934;
 0x26dba58ade8cda188f49e52fce7167b8f219dbd924d7786b0f98fb799fefa2e;
 0xe81a4c71073cfff9bc2053e730c22f6f04712a44b6fdfa3e5d031ae937ba4ec;
 0x1b643ddf9217a65dcf59a7c4a40f0a8ab16d034cc1281c981940d2ac528c11b4;
 0x26cd2f5364c6d09211ed0c9944602e97e582b47e93f8877923f0367c25ecb766;
 0x14e4f38d385b57d8cef67ce66e5199f2fdda3ff261a139a9a421ec1f2bd540b2;
 0x168e02a829c74f8224d6ec0f2a87b93714d60848920306ad51309b5f2736c998;
 0x2fb61a6b4f14e47f6ec64e4acdc941829a48782090c2f399435382ff67b7747c;
 0x2b8353e21e9a695ae8b58e8a11460e8dd7630b073db22e59ef804f570e8a55e1;
 0x29dc5e33af36ae34947c29d674778729ec99b8ab4fffd5c3d957ce532ae7ec10;
 0xf36d6ea37c6705c7ea7bcc34950a883ec6505ac89b6b5d41cc743516e6876;
 0x2799caf6a25f94e81d9f8e362093d9c5440aa9be99dee55c54f7120492a40cfb;
 0x2bcd01c7e5c45ca9764c04385a1636e247e47382b443d73a905ece066790e08c;
 0xf0d76223683dfda5320cdafcc711a2038f7ef465f9847a8c1c4904d6066adf8;
 0x2974f8366a339e664e9b42672012b8ffae9079796783a178ea0009179fd6577b;
 0x156f973d0d9d785674e3b7e05e96c5b11a582c75655082796018e9dc11bc5b64;
 0x19da910e2a4be9d039440b18d700dde2f65455708e7cafabb61809e4103c87d0;
 0x2cfc58b0abe0def0fb166d114edc3d0d3cea117ac3dedde6e6f4fe7ae4768505;
 0x2c0c40c61c6598dd8aba498ad9199f38bee4e39fc06ea761a2de890aabb5d9a4;
 0x1e30543b1ce12e136f719a5920cde3bc35e1b94142a993b522b96ea9703d4cba;
 0x12fc3e01e274c109f341fd2f9869165284c3c7567e2604dd638d0f2267d63db;
 0x2a9680b2eda565239cab76b7b7aa8089f732fe9f0167c9beeac9ca8b146387f7;
 0x26dba58ade8cda188f49e52fce7167b8f219dbd924d7786b0f98fb799fefa2e;
 0x1421e02cf82980b68a9c81a28eeb397e0ccaf80055d5aa562d9b5f68bbebee41;
 0x217804431d1cfbcd6e2ae64af07ef7eb31e21baa352bcee45c73af5f07db8d33;
 0x2d15bdfb3a952df31cade21c99f2933edaf8d7aa3f69fc1a16a3e6bef6c7f5bd;
 0x27f5885f9ddc3ec7e7f2b43d6cb0c0ae1e0e2555ef46cdbb753d13528e239f0e;
 0x3a37a151a0a4214c78b52217dfb4bc323c833a25e0c6fa5b2c9c4e1c3deb674;
 0x11a6fda46b867456af4f194a5f0571a3053adde7288f9fa84793b3516dc1ae4a;
 0x24f22cde459accabe8eba8e9608341086af4cd4c04da2440b067cf6ed63b196;
 0x532b9c8c9c2627b9822eb7cb4e26ba7356c4c867c42889e19d80903be433a1a;
 0x7f309d33a4d334ca3179048797197b7f6729a3518735d608057330342520b0f;
 0x947f36abcd0fad800f8abf23edd43565b6b6c26b7e244af6527036971340f67;
 0xbb49c33a2751cfb8848554d24c216ddb7e6b88234769ba9304ca0bd580c2493;
 0x1f791d5f90371b44b925e5fe04c2e994a584fc427e4219f551c35215e022fa9a;
 0x1618299c6088e1d3a91f6cbc0956c6afbc3c38fd691feadc8d6787ad52d976b2;
 0xcd4c820d82ae74e29d1915d6eed53be77e06c36f27598cf78773b06b362e029;
 0x158545181f2bd7b64bfa41c26e3d4f5917ef52851c0046a7f18c26a0544b2ef5;
 0x1af91ea8fc2319db6925b994492b65f631b416992595c9bfaf93ffe5839d86;
 0x26c03eac9227b0be2a855f95de0c97d337d763af75f1ba327a9e409cd5a718ca;
 0x189b176cd8975d36e0ef78f2f39f8780769d4c7411a5ad2724927981ccb1ab03;
 0x41d9c7ccbf82c77e0580400cf1f9b530aefcdee51dc5a1a4b5a142d4170c6f8;
 0x274278f69995b40626a7796e2f70b1d6b52f9fcff1dc50967080d9f0332ec782;
 0x26dba58ade8cda188f49e52fce7167b8f219dbd924d7786b0f98fb799fefa2e;
 0x1c9a29a3fb7f2b95c153503276233cb8b1e4336434661d97a25389fbabf3037;
 0x2cb5533d1d73b7b385328261659124419a9a7967483f0e3a3e63e3a4172d1712;
 0x2e9bf13980f73bc9d03f4d644e7757f4a254235e659364b078607b15841ff222;
 0x1467a26136dc7c21ae1d2eb531fd9af993c9c0f7923a0f17683babf7847ff5c7;
 0x188210cd164a330cda3a1ec91c7b55c8210ddf706cbb38ede5d8b6ad98122539;
 0x21789113e7aad51c02f8b3831e2133e1997ed31239ca267c6682b003d00f46a2;
 0xd6ae72f4cac38afb4f95f69e9af3571df0ea4d7a726ec3bad4c9c3ce743543e;
 0x29f63bb7c7b8dfc1a470d95f246c1ce2fd3126baa620abe230e181c191cb7cd1;
 0x2f0fe6071d605469e17000e29ca7b618efcb9fa7f5b296f7312515b7080ba1e5;
 0x2c993b62a92c8ceb812cad18de9b0ca96e041be6b12bedb8f64797a6b26fe167;
 0x2fa9ced73852f04ca937475317f1ca35adfc8c2b89bcc4ceae7fe40a28f05896;
 0x130264e8ed86dcaeec0aff16f605f7fd4577783b348758655222d4b6c003855e;
 0x5137ce88eb7162f2c2ee9fa54b56b951a4479f53ffe656fd6a5ff4c9a03853e;
 0x275c55e247d72ce00068db24abb786eed71968b226330472f6c8a609f2dee36c;
 0x1cd13cb77f0c869c445fa8f9d6d49189f7ef7ec00cb4c00dae22db33c763197c;
 0x6d9b6b1fd1e26a4ca07e71e3f9d40647caa0ef100a990ff9cc4b73ecee81bcb;
 0x169dd62b282e78ff51548fc12731cea18b3bb95e8262d139b1974b2933a7b373;
 0xc0653c4aa7fefb13ab5210cc32133a9faa456bbca5f4f0a4f4a1b8d14702afd;
 0x2ddeae46a42784ce32df7b9f7118aef9f13552acac2046005af17748815c23a5;
 0x2263646d28d39b4b0ff6d2243ea0e67239533523f83fa0f4f6d575bebd7bcfa2;
 0x26dba58ade8cda188f49e52fce7167b8f219dbd924d7786b0f98fb799fefa2e;
 0xf91c7a21016b36d9010165ac8b1b7169da842bc0a274adb5abf99aadb62b936;
 0x1a2e0a81ccc7ca01220f2e7ecf9189a5f2b9b46e53ff92d8cd238b5d195e743e;
 0xbf18f381ca8ee6f9ff4bde5897d635bb27dec564132e744ef8dd436d1cd97b;
 0x13296783d0803516483338c7df1b5fcf81f710522c631a1d6db1a1feb7efe67d;
 0x21c82f469bf6605a5ee156b2511e0f67e9a242e3d1172f826864a0606ef594ad;
 0x28dc10865221c98f25307ed8eb2e235e27d5a5d41ab3fba09baa0909fc939838;
 0x23cdb14dc014cfc69098cffe231e4d43a20c6b3e4db8c6d17fc3463fe94051fc;
 0x21edeea093570815944d629d7ab442d595b6e468ceb883687bf4a1ad49fb2968;
 0xae1075937d8413c6471b481f04b5f6da78c486c9ec3a39f166de8edbf6ef5c9;
 0x2fce3f0792f5cd047fa8bc04de4cdf33e1fb7813fbe14320cf794b05df31e9b5;
 0x19d1204d38bebb4547c168a8b8e5f9266c5c88f9d30ca6097a5939ec41366bc;
 0xde612e0e3ff1ec8c10f2f6683274e98c095439b57c178a5bc0c322d94ef05aa;
 0xefa0f50e18937701c781ab79f263cf9fd325d58dd4d0936c592867f49707561;
 0x22e1e777da6b3d2afe2a2f6f74ed2487163085e736f587089fb120e5c149f8d0;
 0x18556105a08859a354db011951e9f9c5967a71ce648bf0aba15f2a559fd3976b;
 0x1a5931f9bf826e643d72f1e85104e5108ca339af493cf5b1cc364552a309326b;
 0x19473fd23dcbda0867c0d7655f4a2b99dd34160fd90b3a12dba802b661dad14c;
 0x29c96a2d870db1de1e35ba02b37449a947dcec5e3708fc592414acb59812c708;
 0x157097a50fe704e1f4c54a55088edb174721db69c7b7ae1b7394403ce694b789;
 0x21e90e34302deccd9b3588cc6c5bcf0abdb909e8c75bf618bb5a5334af7a164b;
 0x26dba58ade8cda188f49e52fce7167b8f219dbd924d7786b0f98fb799fefa2e;
 0x1d31a42740e431e210fc1553f20308cd05e93fc59b6bf166af395f9a66fdef38;
 0x7d5c120df5efe5ad44d43cf7966f6260b523a9b25da639017e7f14dfdbe22aa;
 0x1e4a39cd76190bd1b656e2982671758a893fc7d65985929f0c914553fbe793;
 0x2762072623790fc85fea72d6c64a298bfb16f90ca429e91a1db2dca2451110dc;
 0x144554ecdbfe88dc6f0c11c5f6b11fee2a86b1ec4cf9d69750091a7835ed3d20;
 0x1983b95a2c8b6fc3734c7645ebb497b942da887c3f91c054fb1a48d3c8a1fc2d;
 0x1113d1a221def2da4cb7faf3684ceb9f6bd2f3b0f52609bf08b2732252e9294d;
 0xbf64c4ef1310f286504c25a637ec31686cfbaff0c10ddf272a92f6fa8af8441;
 0x1209796e263e0d9999996e9f742ddcc4d92a12fd58ea384fe0a639da9334dcdd;
 0xb1eeb6c4cd2d793bf5e7c27bb55c1ccf4a8d010c6e6fd4909619960ab127655;
 0x4b05da50f761f6e8b2e065c6c6ec74e9277ad16d1829311bbebe773bc234a18;
 0x328086aad9ebc7aa0190d029b1b9ff8c89bd85b90206799d7f0b9a67806e99b;
 0x1ddfbad99857e4b84449e1076c3ff7a80585378d2194d944ed9a6fe227b16b85;
 0x86cc93c30e9bc4bf90c09dffe4e3755ca2272a216434ee6df144c2414930217;
 0x261fdfb4046f9f04902356a5682d941d98de74d39de11374bdc24fc441d7946a;
 0x21672ca29365e252389c40a058d9af3cd23d84e9a5c4c405b7197488037cfc09;
 0x2e04c3ce66b9cfecba87989ded13eba5fafb48fb63088e48010dbe8fa1638dbf;
 0x2c8b25d7c74be5b163c04e13cbc7478735c966253677c689ea1819e760b20aac;
 0xe9cd4551fb4ace8e62491b7e6a32d6ac5eb57fb5f801de1b27715cf1c770216;
 0x17cdc28c38b48f61a48be7d1e5e5c57e8d3caef8f59159cb8017b21d67be834f;
 0x26dba58ade8cda188f49e52fce7167b8f219dbd924d7786b0f98fb799fefa2e;
 0x1edcbf1e8c9add9f39b44ea9a4616fa51a90aa8d376e251e034a309dd69330b3;
 0x123673f7bf110ef3e41b81a4450a12dd2ca03a8e2048aa76f46be766192c68fe;
 0xee62eb21957dccda2e276ed02acdca3cf83ef2d381de42a0952ba4e2e71a086;
 0x67c268f3b750898c2a26b57a4018e3be45c9453001a6205ccbb4abb9a07696c;
 0x15a74bcb36f93b558f2f215ee8d41c64c4780df231ffa1b991e116f0c6e545f3;
 0xfd15b70fa8970f88e689bcfe746a1357b99a5b73354129d3d49673ae432210c;
 0x217e872910c020e9f11ea5437b1dbc0f45bff9a2c050bcdcfa2b6c345ac11451;
 0x1d12a9b49accc9f63862064b6f3d0a2510aa99f1d835880cba6ac0891e172578;
 0x2c9baba92c77edcd883f32d4c34ff1dd285e99653e602c33ed3a6ebb65e70a0b;
 0x2476eb407cc255bcb6509912e6748cff7adeb4cb933993b4f8c9643c03988fec;
 0x629b9717c416be51a6bb98c3716043450d39fc02078e1498121393a09663302;
 0x1b8a88c8fe80358d0e1532f7ea232f1716e561326b5000f53ae948fa3eff7e78;
 0x23739fa9f1d477e950ff4d63f82d632390546879165819be81219773004dfce9;
 0xe7522fcd267e8fac57c87e271f4cbd13d488f4c25aea6719c2a17cfde4aa8f0;
 0x58a36221cf3818847bd604233233e69a718cecf262baa457cf1e5cccb9ff6b5;
 0x9e192a9e456d483afc81ea5fc9cf93bb91a03334eb4d239753802785c6c8fdd;
 0x74cbcb738b033d9e9be837569ad0dff3d8ffc1eb3ede44892566568cb66b68;
 0x283e0b8b91557645c15defd2d8f6e21f27621adae3ffd0a7d7e9f31359110260;
 0x10eade70c487ee2cd5e43d51525ccd0f345a69ad735b603cc108c17b498152e6;
 0x2f01b82b8346c4257c16eff957b22028c5502667fa6874ce956e03fb6939f21c;
 0x26dba58ade8cda188f49e52fce7167b8f219dbd924d7786b0f98fb799fefa2e;
 0x664e78dad6b22d4333a1f9ca0ba708ad6ab875efa8e8997a0a8540a2599b0c4;
 0x4e1f57eab14954bd0b21619ace372b8d8aead861ac55f082aa3bc1d8245074e;
 0x41d00073a80f790beb8d4b4e2ac64f807f806d5fe9057aa196f880e653e6c78;
 0x2d2d71f2fb3d724683423f92661c8f441565d2e5a878b47af687fb9b76e1737f;
 0x2c80f1f732fd19836516ecae7d53f145076edfe857a6cd0749b85406ecfc14f2;
 0x2c4c5978cbe976f81116003e82010a291a0082dbd92daacb0a39bcb060a8d5e2;
 0x13e3c874118b9913d81f2d8bdf4a87a01d6e521d6548c66d7c0421db714dffac;
 0x1c0abdb801cd736feaa3fe7f98515e72f7a8d72ef56b5952e6a0e807e2c685a6;
 0xbd705c574e698fafc2d0979e92e9bbf0ff92ecb0a71378be168bda88c33d0d0;
 0x49067c522e1f0393a320557b41676f2539d7815ef2b21fcf310cf626d13a133;
 0x1989344c4aa025dd6a33c0f2ca58b22ea3f49ee5d29f0150ec05da44a6babd2e;
 0x2059839a6b9192e77c6182e6e564002b930aed9f328d24061701ce784408e3b7;
 0x2e29f425e322f7780dfc808e679480fcaa0761f752420a49075d76a085e80e28;
 0x2b310e22ebc1bbfa6514fbdee2a48cea36c1e938a6927486fcaac8201ff253a4;
 0x243b6f33e43a7d1ed19e7f1b8163316c0408e456180d572d52321b622a2296c;
 0x3028c94e563bc654584b3f335b0bc3312ec0ff0df98d3c7f2d02d710e1c7642c;
 0xce5a4699a96b251fe3c809248875d0b1d60b90cab8a30ec6f882e5ce1823fa1;
 0x2b9f25a7fb74acd52831e38877f95297970b3086d7888a5c2e1c11ce1fab81f3;
 0x2bfb58abfed4844f986fec4419dd8d83eb0d8a097b72b84c81c72a9eb4e4f7d5;
 0x239bc1e4d55fc6ed2c1e41d18252c011fc588e358fe839e1075fb344ff366d8c;
 0x26dba58ade8cda188f49e52fce7167b8f219dbd924d7786b0f98fb799fefa2e;
 0xa948ca5c1f9c7d679c476d6cdeb6483d28b8fff1f4b3258aca45312da96c7d1;
 0xc5c83d7d624699c3654b32ca98a4da4723c4601cd7609db406bdcc5a9634a9d;
 0xfaa398f6fc63cc36b00addcfd69233489a8f96cac8fac8d91cc3c3b502d2e2e;
 0x1db588b11e10eba9c51ad6d4d990dbb580c64c0bf499a3b41006dbcac277e1e7;
 0x1cb8fddcaf050feb6977ef7fb82625d63f7286e4a0bfa52a9f601de563bcd96e;
 0x22154748d72b0e00f0f33d6d49e08b874ed2c638fe4c33648adf8862748b2f71;
 0x18bd4153a10ebedb78f02b14ea2663a857f458f2708394c628288cfbc802b043;
 0x111deeaa497d2d32e93d6d783dadfac2726f8487093472ec4fe8c36bbe2bb5d2;
 0x12edd647677abeaa0d99f2e4596bd64e1604f69552b6971c8ac3b44e7cd10a2a;
 0x2a1d5873e48e00abde4902969a921782430bec7be01a4284d0455219675df9b7;
 0x1470d1c0f33d2d5e2b2098376d16cba0738c4fe278ccfc3b824879535448338d;
 0x16899463366b193f0dfb39b35df617118d55074561482e0a91283bdf40804051;
 0x2af12631ed9ea59d387e2b2aa14a3ae1d28cc496e7fd28dc9cc149120108369e;
 0x6eefb335586d1eb862c09c79eda3712bf64ee5f51913c14e64787f59ebd4fea;
 0x256768779e0e07e677ca90aa7e514bb6eee69ceb47e749fb90ac20923d3af52a;
 0x5ab1585ae26b10fb8645be74d3e1afe99f25546e0708fd16ee2493844574dae;
 0x9b5ea9a096902a104e5b1fe5188a98ea78a373e7f9bf27f6218fd5f71f6e6ae;
 0x2d34bed47cafecc7b37ca25901e9f5e3c658950001d728722dc56b71e2d4619c;
 0x2d0071d201824d43fb057a0a523c701d2b8a37278b5178c18ed6910cbdceda12;
 0xa770d994f92bda5a4b63e65ff8cc35f59ef5dbc20732e1580f703d41b5b6281;
 0x26dba58ade8cda188f49e52fce7167b8f219dbd924d7786b0f98fb799fefa2e;
 0x1949dfa21e6b27c70609ed2bcc7aaf4f6244e289500c48fd1245566837cc74ea;
 0x18eacf1750c093e10b18f45702a42766f1803f4d2ad79399b86856d56d51f25e;
 0x29c3379e427d4e89862989d63a72321fb73197b029092ab8bf24c127183cdc8e;
 0x29fa50d3448bd783cc59afe8975b7da38d3410fcce680210b3295f8af30929e1;
 0x1bd6d35f109a3549dc1da7f96953f1c38f069e9a44141e85e69908366cd65823;
 0x2a58f6745b90dfe97d3f89415e375c43f464351bfbe3d140cabd8a343313eba4;
 0x1e34e898a082d5a1bb452870e41bd67cc5932031ea8afbf460d6fe4c253ec6f8;
 0x1f2884e10b6e90a0bb15c6ec37d269489c35a9fd5f2f8a548002cabaf189be32;
 0x1297717d266d0f55d1a8d83e85c22948a89227f47408b0a6bba88cad4e4064fb;
 0x2b9d9801a1b0a616582b65b84d5b76da1d6f428807f074108cce867bf1ecac7;
 0x701f771295984199a107564c0918dd3c397380bd47e0a9f0cecc0d57dec9feb;
 0x1a294c810d83e3f3b9bcf709dd22b810055dd3e6a11e456b284dcd40e084a263;
 0x10103201721be8dfdc55548826c8f2c6c5ac249a66079509091b71179eed1d4f;
 0x22d656009cc9ad0ea9a60cbd4eb058c820fb5387714d8b4ff52609638f3952f1;
 0x1d493a429f8db9f3df571b9eb1d25d425a09d75e6bac7ea1c8c0da141445ba5d;
 0x3d1a76c0fecbbd1ebc3b20370894284bbe97b8cf7b14bbc95dca839ec9c4c8b;
 0x230688c1f26ce65d683b5a4033cc5b781ff38d4a4e28aaeaf57b495cf843b0a5;
 0x159c9adea02eeb1276c2e1600930929edbd7e47b1283ed273db5ebdc596bc672;
 0x1abb8a81b4629456b639965a0ffee6ecaae145990d97b2b05546f47fa416e57f;
 0x12ad1b21a9c02da3018f187ac6a54e376f8f71fce321933f5ec8a55adbcd0ee5;
 0x26dba58ade8cda188f49e52fce7167b8f219dbd924d7786b0f98fb799fefa2e;
 0x3c6c55cca4740582956cee40ce3053e89ed882ea253a366d07dfc9a508c2e78;
 0x1fad53f449b581d0ed39dd41975d9330768364c1a97d9fd511d0df16cb3f408e;
 0x1fe8bcb3f7fbf9c21fedb5a0ae4dfb7ca275d535c7847b23cb74c18251b726ec;
 0x218b93667ede394ae16efa07315ff7616f6864cb8293bfd3418f9d5b14756396;
 0x41a688c1fb421db3d8716a64fc39d0e0677a5c43de90fd04dd9f3622baeb3ce;
 0x2987dcb79171d214817a006127171695659ea28858ae18c6fa8e505a4ea02033;
 0x14f45ac12d071af305059de0fc028778d5c1c8afb476d5b7b3ce2ea6a5f3250f;
 0x959f1dec81c5f8225c1f2ff4ae2c67c73e4d379756f40ee9f691c82ee08c6e9;
 0xac0780131779ad691069ecbc4f80886c0bd9518d9e04b99146d29bd7d9ffc9c;
 0x2a7e23e5aa5668bc719b0cc26dcf781d2ca359987f1bd6f9099b953751c61fbb;
 0x92c0b897d36323123bed6c99dcb3b50e397c722cdfaaa9bf6740907a4b653ea;
 0x29b1674c1e4b705e7fd93d10a380145be75934710cf6b43d24817ca38699e702;
 0x25db198e1a5de34b6974aa38ff53572ccc4036447a654aa7f068602233cdc0c1;
 0xff3174ad5ae186606ffacbd55936b65838c2be6a635bf8c9941652a485b8c6d;
 0x1bafb08bdbc32bf6b81d2026005e3ac6390ad3e36f9178be21034262ea674e90;
 0xebcf6fc297c34138661ce9235e7c0153eda1f0c99173970442976ff849eef13;
 0xd729230e5d6913a779746f2975e35197eed83aa613b7f9dcbfd2f713b8740b7;
 0x20870e26b114e1e20c70ad2d6c3c29bd78918bea5bbd7ec8bc0a60980e601dbc;
 0x84a3105ccbeb8137931901cc0a48ca7426e5dbe4d0095c11d63d0f91c64dedc;
 0x1b1e9b1d59d5f4518412a828475ca50044fdaa1c3490491bb508d7296436d5bc;
 0x26dba58ade8cda188f49e52fce7167b8f219dbd924d7786b0f98fb799fefa2e;
 0x1f4bea0f3c5dbf0b4261b9df35e5cf6a5cc36973d09f0b35fad3dcd0a4c69acd;
 0x1222849342a144de2b23e8bd848ffd096cd3332f57a245dd3ebfc26032a6186;
 0xca7b33f1129a98d404e882ed0a70737543706248c7374d9aa6470583b24ab7c;
 0x18f80a875ca2972a4d13d41d81a1cec56cf384780b5738e59988d9aba4cbb66e;
 0x2428fdee2ef9912f4693ee9c2a59e82c625e23e9af79e990dd7884410846f8e7;
 0x154781a2b5c4401f6ad2809fb9ac23f3136a8e3950ea6e3f084600a730c42d95;
 0x2c554db641533606c10532eafe2439e48d2925c9d6e183dd85f0c24986ae38ef;
 0x3b8b288b1e1a1fd2faefab9b4e00d9c503f8574e67112bbe603eea37b97ec18;
 0x93a9b03da561b4ed6aae3a98f4d2a9d1d28146eb0e91464c25a0e8f2f6011c0;
 0x108843f8d4eee7c9df86bd9a2dcf003d3ece8c1fbb2db80a0e225597ccc54286;
 0x1f043a72cb5432a4c78f14505ee630bbd2367e83f18db047defb3ff1a495715d;
 0x15a8fb06e0c14c181244b3f43d4967e28ba32bae1e84223037abb1524fc26413;
 0x1ddbc950967b1769cdb4f8684b34d9bc25b04deb0fe5fb117ad609a5b7f4049a;
 0x246a58e326b240d18618908b13785636f051ca1c3d5accddcf7cf4af1362b5c9;
 0x1cf99a40b8265758ba68441a45b4993993d732a8b3b88b4d983a62044c0bf7db;
 0xd7de5619f4c546050439e79af5f2d0b964ec40ac92ab9f33c617623c9d0479;
 0xe5e16504bd5429f1989950e8f41adacc95bc94789df4f29eb5c623a9ce4ad87;
 0x41f35a7896a627bb884f8fea782cb487c872dcfb82dce7d0e6941765d1ec149;
 0x1537debc183e50b25642a94332739b9dfa8610ef8297d963ad4f25114897675b;
 0x2d702440567bcd957920abfe3ca1796dc105a9d6d69df68f7040d45e14825154;
 0x26dba58ade8cda188f49e52fce7167b8f219dbd924d7786b0f98fb799fefa2e;
 0x14849e30e423d2818b033824be79e994d3b294a7745d47ba7a04412c976a4d86;
 0x136803dc9b44527a2831afd600b224d3be36a4fcf1f1bb12f6f3d9c78a49b55a;
 0x28ceeac4f3b856158657defc6ec2d98ae8222838625951aba51df3d92323af9d;
 0x24e2a9e2a33795f29eec4e3e5171cd1a4f102b387032736248d51da2ca097dba;
 0x176b7c931c84fc51a695bfc635c9b2d7e38c0fc9e39119a5d270be388a7ecbac;
 0xd230fbc8ba30ea43febe4d7d57cd646c1679a1e1a8066637e19d7b5f783c465;
 0xa3d177852fb1432eae4cea8005dffe984df233705a362ea87fd318658b1b10b;
 0xea4e2627f1b0f14a84fb72f14025e3f2d4087b5e23e197b4be18de9bc5d07cb;
 0x2b5a5586e185e6aff9ca42ddaaf4a48fcbeb342a33b7d8c30334f69917695c18;
 0x930ff45950e0b3a55c7b5d59b1bb103f43dad87f10dc01af4f029f1334860d4;
 0x13bf29d884e6f2f7718c62b49b2e4488f78abf3371e60ff6a55f8fe614093af9;
 0x1347ec6f72f1e6424af5dc07e72c8ed704c1de25df8d0298a06ce875337f16d;
 0x7f98eec37ea11c6a953ed4074e0de0319c71c5d80c6d9a7f1a7ed1642cdb3ef;
 0x1fbd5467ac28426e82ee95d4e67c1bf39ddbb0d00c8edc994d01b085e81025f0;
 0x160ad25d0a5b481711dfd537166e9a758f46ae98705c09a31bb5dc9ca672e06c;
 0xd1b059d762e26c7b237c2529c1a2c0420112b04b34071f365768e31c4ee44f4;
 0x576eaf22ed6ba9247a7c1cd5f36da28d3c82fee37029d5a564eae4a149f2ca7;
 0x189097900e6ed2067403aefd8cb2d68f8be1386dac2cb067f346d027b92c13ac;
 0x1d611f1ac08a2fd6b50b23612cd9a2dfbc77d3f1f01cdf0c97776885ee5f538f;
 0x21966ac51d732445609cafb1fa452a675d16df7f7c0c932aa136c7914da84816;
 0x26dba58ade8cda188f49e52fce7167b8f219dbd924d7786b0f98fb799fefa2e;
 0xc4339f0ecf040eca09a8ce68b829e18174e1838978d18ffc85013bc4569bd80;
 0x20bf882ac8fa2b8a798c0bef93c8faaf79248ddf7520bf6615b8d4438f3e2f4a;
 0x1e097984b47ab98e3f1af30e8db0aeb16dfb7257a5d717b74a0302c0c65be5ac;
 0x2124c450afb451c834597afcdeae34d494f42b83ce16525ddd426897cb85256;
 0xae46f4aac64bbb73cbc4861b9d67dac7a5b9461185f1af393d30e0f14e6c86e;
 0x29608e35e4618f2d31f77f1222d8461c5daf83f8f96a1c3c22ece574bad1892a;
 0x8dda504925b8e72976d7225b9348b621d411c42725054f92bc5ac7f20ee1063;
 0x2d83e776ee847bb606165d71c5395381883eefe3e72db208d05671166672892e;
 0x158c6db4fa12040276f28c52fc4179c40c0b992ce3ff614cc8a335badcb5625c;
 0x2ba81ac87e1ba4a0abd35ef4d5e708098d5b3ea59df026301d29b0c639001d1c;
 0x297ca48636c22e1b41ac10da84d18930f4293297be2de6724d4a1c927ce6ac92;
 0x1ec2fa366088aa3d24faa8b0857b0ee947e7ac412a5c383d80a52219e3036715;
 0xef8e90ab9a0d92209ebc7ae7eef599134faead83d4cdc6a35e11486f256f91a;
 0x1a1ba37ce6b31c46f06b166007b84b1b5a729277769da12ac45a05329b1ab25e;
 0x1ce58fd6bb4c70f222a00ce15e034aa7f951e55745f7eb0e89d9945dc648ca8c;
 0xc96b4aebaaf211ee53c2592611cbd815cd8ad79ab87eb426ac951d465200f31;
 0x2ff556ea91ea4010ae322b26cc3dfdde21b77814aeeecd224d83754b6fa95b91;
 0x51d4d2e3822d407607a763652423f88ab8ac41d836032e330dcbdeb89dd94d5;
 0x1f484dcbd4ae03263c1043e2c67dcd871af9f682bd063efb99d6f2c1f58dc89f;
 0x3625c6bbbeba41cef4419cfc7885a6acd236f23c10bc21eb96fa3329b0aa808;
 0x26dba58ade8cda188f49e52fce7167b8f219dbd924d7786b0f98fb799fefa2e;
 0x132c2bd9c3df321b8329f997d51ea4756f06d20599a69b00d9f5d327f431bd9d;
 0x223271db36c5a5b734893666d05f8c23472da5750c9cc2185251d1ce898cdc31;
 0xe442d13a0489c8ff0792219ab95cdcb6aac03d12617b498eed4f437e9e90f8b;
 0x49bd7714d013f9d4ae5d6b0d8a1966e3b6ec2991f80938e99496db12778c62a;
 0x16863ace52579a519dc0983e73f391982f34daeb311b455cd75b3c7f75c4a406;
 0xb043bbb7a835e934403443a871e8b09789e825314c553ddb593c117ed9f7a29;
 0x2233e42b11b31512cd6662e6e2d0f6123b84428079fd25823e39ac7be086c286;
 0x1eec2344b54ebb5d2d89282cef20b5a8297eca522759df7ee82f9306cf7013f2;
 0x7d3c2f7ffa7d307b1b80cfe7fc4fdc571ee008081d1a37b83d83f928aecbed5;
 0x2040b72eb4e1314e2c6fe28b0e10cda2f444baa97cf15b110a5571ad006f36a2;
 0x968c69a272239d4657b02e1e1157635654c2493c5dc21c80e459c36943c0c7f;
 0x113daea091f19279a75d148f3407940605147f41277347181a2eb45da5e1deb3;
 0x1db9caad8a73497abeeed4ce12162d16c8ea56a6ba6680cee0253d7010c8b0c6;
 0x323906b531b036a422544f9a789b4818947bd7e1010a9d3147dfb298d747c97;
 0x2a17b02e605c66f2e9191f6001fe8d0c054e9fdd72aa912d61b14db3e9e5ff36;
 0x20215701f065bea87da0f51f31fb17022a2ff12ff86a3a7d50bf196b9a1793b3;
 0x2ffb3a8d5050efe66c798eae2e37fcb0e75c8d3098463728f1258d3d15e9c58d;
 0x42aafa50849b504124ea788b0ba7d398ce77b42c09f25618b1661af76c42d7c;
 0x1f0760c47e75e2988c7c5f2729776fd656ca950959500807c33b15d2a20b8d0b;
 0x1b41324592d37fafa8175af1dae1daf093b7bd074de9dbe0f47bf246fd338295;
 0x26dba58ade8cda188f49e52fce7167b8f219dbd924d7786b0f98fb799fefa2e;
 0x1326782be064b822cd54a82d526e0861f69cd054922b7809cb2f1c685b255442;
 0x140941464435a4da425c24627a01d5d0620429caf2b74c1cd8217f6ec0c5952;
 0x16d038333ef8265b4437495d35251402386b448bf2c652bd752875cd6abdd7a;
 0x14b3bded0283d8f82452086053472baaa94214fc64e23eefab04ff3a666ef793;
 0x265423dd06e1bc30d7ba50361df7b08371080b61cffa5cfcb4de6b840cdfce11;
 0x28c4d3106aa551425285a62673853db6ee69f820a38010b1e986ecb25a517c43;
 0xef4196f06abd4be2c6c77cdd3d9fc71b7056fcf82ba878a3c0f4a642184f33d;
 0x9ae72038e07e063172beeef085b160204d41fff261164869ddd3b35aaa852ba;
 0x1e653d313dc085a19473cbf173a65a752d300ac1001b2cc6f868c5aed1d5a957;
 0xfc8d4790130083f7d876b437a36a5a07861bd3fde394a7297affba00cc0266b;
 0x8889eb9c02f2805d59ad7c1cc11f1f8eac7d10cabb324cd28a4ceb64fab9335;
 0x5e2245fb34a0b6d4fc8c7d9b98faaaaa578a4bc650b9ccfc08f2f94596579df;
 0x1f303116020fcf151af2121de29d1237c03b89d27ccddfe6283c1edd985a8e75;
 0xf0deb6bc06f2954f1ff6e7f2b0f5874a40a67621147f49d9208913e3da2ee1d;
 0x138bd70bb31ee416686431f11be6768999f8a881cd5ded3fba47b1e715b98a76;
 0x2323cc181a6d96004077fc8afa78000b67af7eba4a37699675326751ca3587bf;
 0x2cc5a935240839d0916adf0ba2a13b373cd9a249f3dff29d4e636ea39bb2d47c;
 0x2c2f7e211539740f135771a5613be1b9d5626f84bd9bd3d086f6e33e497d4301;
 0x23a3b12944728d9d8aecd5b9ac2c1e8683a6d6fcde6de09f9d4981576f60bf7b;
 0x98c6085a8de8062c4882a80a9b53bf605cd6d3afde925b4bd97dd0ced63a2d1;
 0x26dba58ade8cda188f49e52fce7167b8f219dbd924d7786b0f98fb799fefa2e;
 0x2b1aa48ed061330641b7610a5ca3ba0397bac5aed1220abf1ff3c053799d5798;
 0x27cfd05fdfaab10d703c5613ac9c30f2fde048b85315e4cad39a76c2625878f;
 0x2c6768184cf84573a0e970704987f3627cf4f467e72d878aba9ff0e6c32c76dd;
 0x1660e8db6fb22994cd208878039549f85464278a6d593dd871de03c5fed8233d;
 0x583531effd84ca69b517fded392f636537ccac39575313c04564411eb381b38;
 0x1b1f369306d9312d665302317d2ef8ba8a5673364ebb84b82de156accbc68485;
 0x26e1ae1e46325eef62e0ad0702b7c20411e5687ac8bc8b0c42f2294ad511e36a;
 0x2267a248407bd8dc0be8d6d60a901e6a6f63198e43ce9ded8b48f35117cca600;
 0xaf3dae82886360e75e265f24f928417f3404fcdc18896104e07dac544146d05;
 0x1322272068ace8538671a961e8182ca7379ae8066dfa8824036856446ce68262;
 0x2ad6d87af121d4b9d388dc3bd0fb2160dd0d43deb5d5fce770b3f66d22a865ac;
 0x2db628ad83bdb8c87642ab36796e64464a71c8dcc07db41090014d6824e9e55;
 0xbcc76f8301e3daafd571227cd8dd395fe5b1ef2a88262aaaa30eae1be85a66a;
 0xe953f3e2a6ea919a39845e34a8fff06874f40fa0c021102551523f0052f2ac3;
 0x4ed6096b59252ceee6dabce4945012b3afa929619e124fc1674f9742de6ce9b;
 0xc45fabe45fad457d5e763ba6f401e038a8f05187a50156e2e4f73e9eb0c1521;
 0x9cd9ddf426f07cd7ca72e4abbc3ca38063705cfe04a002396d91101f41a8ebd;
 0x37124c13e8f5393d02c7dda6fc39b986e10f7eee7eb4d8e8b6798aea8bf8116;
 0x12326c23b50b4f2ad7ad2a6e2f81e766da9dbaae3a85d5256c36f54f99504c10;
 0x27097f5dd86e6bd0c09ec07ed1d565846382d11310d53e11e4ad9dadda2d2a2d;
 0x26dba58ade8cda188f49e52fce7167b8f219dbd924d7786b0f98fb799fefa2e;
 0x213719ecc1401b7f148d90bb4ceb0cfeccb1f84a03670a65cf2071a97c55188c;
 0x3ce9eb2e5a78e09fd8f99bf3677cfb69d8d81fac2ed57a3796fda4c4a75e067;
 0x2085f6b2ed31422f2ef8c9e8132320a9ea78f629f40050f9ae1f8d2212822423;
 0x18c42b10a0239a0788ca80f40bca9eceb54cce28ad7025ad73c0441f46e25d7b;
 0x2296d46885d7edc9e2f4552a8f61e0320ab91104076ba093415f525ee1bfcb4;
 0xf464a47774953e1647c8823c1f0e7965faf6e8e51a392f342e27f6b7e1e3fac;
 0x1afa5a730a377f7595ff598c11a257e2b25dc96a71a536671e98c4fef8fbb126;
 0x275f04d5ff1c821ef2729f6851a372c7db62bd3d45b68fd05375753a9ca38ad6;
 0x1ab45e9a2aa1daec4586bc866bac1bae78d8b8aa112962f34c5c19a4588f11b1;
 0x2c2b2b27465ba8f6c19c1b3e4b52ad9e76df8671ac3817d8c467fb7ce1a0d9b1;
 0x3cc2c6cd22dd586414a1f19bb9bb0f8b7dfde77369f2033f036bd19412410e7;
 0x17b6daf401b7e08bd9c414d067a6cb484ee05cb2e7c0791ac2bf415e847705ac;
 0x43084224ffff7fb2e73981b3d2da64588e746e1ff0a8e41021cf814e846cef3;
 0x19d25137be34aa73379f19107fefaab7ed485b5d49124232a91341747818b125;
 0xfbc00ac7aab927fcab38cc1f033d0c79ae42cbd8af8b9c676235361805f797;
 0x2a452e57d835dfb153c5d5ab716c615586a692f22ee8bb70cd32ce786675b85a;
 0x14ee41c5beb4f4eebb844ad27cd712b8b7b7d3bd96afb18417b0bd83650ecf59;
 0x151e1b6f64a2a6ac4afd3ed3adcb59a2f246e4d018a85a4dec29867998bdeb1f;
 0xdbc95be9577eda26c26b97276780a2c44046eff2d20ef3e233bc513eef1d289;
 0x2142c00dc3ef56e58d4fa535297d2349fe5a8720609a459de7d10ee2ac206735;
 0x26dba58ade8cda188f49e52fce7167b8f219dbd924d7786b0f98fb799fefa2e;
 0x14f9e34fb8cf902037da0287f7fd59460ee42d86542ea027f5065f4fdb362030;
 0x1af072ef30b93499a21687071d9596f8c0720959f5aadd473015a320f525f3ea;
 0x1f79f8f436951eab483845158d798af4940c43b6c7606496ac7787e23d513562;
 0x32ac1327d91fda3e58b64a629d066b7618b0d2bb14bf0054f8a99ea94a7f9d0;
 0x1690528ebb80ebae626e4c7ad7808201106c3f6958a8fcccaafbf105bb982969;
 0x28d5726bbe2136f717cba221424342090f8922b607e61fddb1278c9090879724;
 0x2b8c6cdb0da43e1a2436f8c43ab3746356bbd0a40ae0f4bc282c8f24d205b2aa;
 0x1057e1a29e1cf4f016b0ae4b377cb2946f4ecec14d8a9e906e8bcf994968ccc7;
 0x26175299ec4bce279b5cd865110cb0f7253e035e4dd530dc78e98dd167a02c40;
 0x2fe4d13a9ea0682f7c6c79e2faa642823c6ec6166864a3becc3aa96a06023078;
 0x8faf60f2754c6f88af83be51d4d8fcd91a530c7fe1a7e15c04672be2e26ff80;
 0x1125b0b9078268105061cd44cfd53e59b4441c494e4e621513c0e2a7897f2ac3;
 0x2ca18674217c0814c200984a2e6d96fa6ad7a93a350ccb857f291dfa0a6b7c87;
 0x1b654e8ca3777847d7febd35e71555b5fea755b167581b91b8e66e7557a13755;
 0x25cb5e571aef3c5ea542332f3cc646f940ce1ea986284074b9ec9a26028fc3e4;
 0x10152a1913afbe44180af20ec59ec32a3935fd2b531d968f71f0365054faae15;
 0x27d1880942fecf4f9e46d11a1e3db53c0ae9385a676104de122c85c67a61b3d0;
 0xb4adee6ba01707c232fc173d7db356fd6dcba566709cc81dce13db425685c;
 0x1e4ce7b0213b39db08d07fb861278fc32ded0de6232c7e050f9e93e4abecf7f8;
 0x9e5542f2b8481d63429010b3f89aa2c01b07684b08c406d0c85cbd0fd01d2cb;
 0x26dba58ade8cda188f49e52fce7167b8f219dbd924d7786b0f98fb799fefa2e;
 0xe24744fcd2826a25131911f4fa8edcf83597f52c72906932a58f3047f9d16a3;
 0x17a27cff4f6f9a2f2a1bffc998f0ec03338c0fc3d3ec9794b13af50b3ed177be;
 0xbf90dbe6022bd7df688eaaf3b9030c5b6ad0c3633b351abe5905c2a2b2eccb2;
 0x2678e3c1f390d5459696d950dbadb7b264f8284ddcefaebd120eb27e2b19783a;
 0x26df8104d4cdb377d22ad344e942b76261b457f52d8498fa69de4e1b8ed37599;
 0x29c0d6adeada68a869e934d2350a77c91eeec6da2c0d7dd111b8f03d73a2f54d;
 0x1517295c7a2561c1186efce6e54a6070307540b69bffe623abffc8984451bf14;
 0xd79894bd7300df6fd04a93836438358cc4d6e6921da38520a04fbc8fb4ece95;
 0xbda733ef7b53f5843811029b9a5c412237a72b96800bcdc6c71223d57157917;
 0x27d91c5d822f56a78c86f2422ca4786b94aaa2f3e066fbeb35b81c7e16c0a1b1;
 0x1e6dd8c7e739fadd91888860adf0392f260272a68d32b914f8862493847431e0;
 0x115d86835c20a27ca16c0aef5afdd73a1b6b7ca6f12116720b235274ca89fb5f;
 0x24df0f59376b1b5e39d9ec2aad776278fab288047a2df5df60990dcf935aa50f;
 0x45885167ee8e695c6ac79eaee96e087946c584049012a309ab8ec2087491be;
 0x44b70f5e0df4319827685be272a32a36ca3c4148b97c13bdab2bd0fe365bae6;
 0x2cc8eb658bd3afc8f4209a1c99566705cafc79332571f133979940b14d736f15;
 0x238c44c84ee349b63030b0fb02fa7653e547c4a6329b9902de3602c3c4fdda0d;
 0x19a32cb6029fcc93db2b01deb8264a9eb157e995ca21aa0e335589b06ff77be7;
 0x1c8612ec98aa9278caa8cb6afdbd00c02ee2f551d3d521ff5e9f92748557933e;
 0x2a6509f5e770cc50d718f8590f5f9de7748372d2d39f59a859c9211ee4bfd50;
 0x26dba58ade8cda188f49e52fce7167b8f219dbd924d7786b0f98fb799fefa2e;
 0x1bab122c560118bee8f3e7fbe1712ab2b2a7312af61fb9820b77dee8d44d6ded;
 0x27172e3eb51483dac0c98e32f05fbce687414c3a3cc27ab1c277b13ce2378217;
 0xa9e3d7f3ef34d138cdaf36b92bff06b4b73bc9ce36156505741195b98d049b1;
 0x1eca82667b9ff6adea09ea840efcbafa5e206c97037e01ffbb28412fd2bb44af;
 0x1dd8dfcac157843cf5f94f9b10baa21f00e02a2cb5193944c3d3e970f910cd77;
 0x23a1e6890522a89b9b88d7db407b00dc68a40692a366936de0eb9a57bbf1c219;
 0x204f236b39b9136dc92f8135192c87c98c7984f1c77cb6064c71ec047975ff67;
 0x2c7480b893a528fe00d1ce1e4d22b330bf286443fa443590a63e27aa91eecd53;
 0xc5370a183a6f75b698c0fc6deb4447cba5de9ef2002cd8eb2904adfa4645843;
 0x237300db179a8dd6b6d784735cdf4640d61d44b518ea8848d8321cda2b7b4789;
 0xd9c58331bea02ccab4b9ef03eb202f1955b266c6666ad886272fdce7b289da7;
 0xfccf4375bda2c5db513e2dd0638ea1d2edaf41c2c754482f833e17c62d92019;
 0xc414e955b84493a9a6c827f24c39f62a9f9c2c8bdd9f76c3884d16217d30c87;
 0x20544d89fcc7941ac4972e5528300d0c35d5a650b8ff51f72974008a312d40aa;
 0x1af59412421b520c1171d8b74057dbb01653f41082f856ba5aa6abb79a43c354;
 0x2fc1a459440613daf728da1cf3a258c093bf41706724e6260afcecc13d324b51;
 0x177c1e93ee0ed483c73f148fc7f9891cbfc36a338075bc01498a69b0e1f8c49a;
 0x98c005b2959ede9425452eee49a4b0803237cf111f046511f8d56bedefa7682;
 0x15866d82d251f9afc692c1a115cdc5ac28b4771bea862dc26643e6db1d61978d;
 0x2797e81dc6fc1e231f5051d228081b46fe53fc394524ff424963da9a91070bb;
 0x26dba58ade8cda188f49e52fce7167b8f219dbd924d7786b0f98fb799fefa2e;
 0xfd25da5fe62ce50a1525fe9e3566e9ff0c9587302f778d7756bd05d8c6aaafa;
 0x2a1a6a789e908952cc8c2e72ef95a937179c9248b091d016f28e38db12312308;
 0x2bb3bf8f61d1ed85e2175534e9a5ba3d17dcadce45eecb3d58749a03e2b04fbd;
 0x1a30a88ce2e48fe060eff18e1c7bca6257b8e39351823a819daf303f5fe641d9;
 0x5ecd325b357e47482e4e749cc8305b45ac1e65aa7ddd915ac37f3098dfd2d98;
 0xfd33eed2e51061ed5cbbe5de05b6ede9152f36b11468387f518a997e4f72214;
 0x95e4c2caedb1de02a6c60b086b8d8b67b9afd186f65e158d2748d2514d37b0f;
 0x1842d38786dbac9400929648db9205d259677647a5024e35caab08260744f013;
 0x203defcfa6213a500d5a788db1e0ffe30874406355502644de206a7303dff361;
 0x2941a9e3edbd2aad6138cb7582c8522c1ac4885b719dfaaf49ab0a138c24c657;
 0x10ff2a2017cba3c024111db07e677587896bf77e0673a928c5c2c9edc53cf2b7;
 0x26f456aaabdad81d33930cd48342be34c4884d52c17c604b45e9bd80cf3c19c;
 0x28e34a4031ce3e5b92d5d92f9b4733668ea65762bbe5fbbf82cb2eca7e208d9d;
 0x9479c03abe2fc4bd11f410d7fe958aa64aad1ed9ce46de12e16dce1aa9007a1;
 0x1901a62758c3b95378ffd836f543a2c2c1922ebb864000184b1a29167ed608b3;
 0x24bbe4299e388e01c96d7de61ba9e9ad46256f8d8c186b2e3a387d558cf912ae;
 0x27c84170d0a49798dfc9ab4d6a96731d0e8de772ca951c3ebb799378d22033e0;
 0xf12a9b9e0cf4da08c085755f42f2c83cf9f9addaabe06fedafbd1ccb7696e1b;
 0x2e34fc5a79f3d7859fff73ee159f8a963cc180ce2351f2709dbcbf6ec0a2d7e5;
 0x6d2b2ce15705618d1574127c9324560d2c222065da0c669ffd2304a1bd31661;
 0x26dba58ade8cda188f49e52fce7167b8f219dbd924d7786b0f98fb799fefa2e;
 0x5b22e29f9914100e09f1d9faa6ec48b849d06dbb567b978c8e2875b8eddf2ee;
 0x121d7d80eca14c71d3a9d568d1fb3d17d848312ac21722507029ec3df61d64a0;
 0x248644294d40fc12cf53892614ec0e91eb6261ddb4de5a54590770b5a63791e0;
 0x8fc50ee296f9fc6e508a23b38d180aa92fec743bb5e62017ee4a3f7c98aea88;
 0x2f233d2487f18e22836df893982a593c74b7294f6cfe3ba3edb8272bd2559179;
 0x10f6d94022fd2c078fc6dacb1532820021f50f288ba40ae4016366dfa703e8d1;
 0x37d5df7e15cf95ac9c4bd02ba53e6d03bddd677a412bee4e0603f88ea1d6ef2;
 0x12354c8b1801f10dfe6c394b08317c7e86f49e212ec933fff49d8b26553f3e72;
 0x79679dd2756be024feb1bb2ee0aa5061a39752cf710ed6c9cb588f33ede8d0e;
 0xd3b424ee9455f137160fa1dd534f67bf068cfce1913a075fdf1cae7e8324ca6;
 0x227338281ee7da633b4b3938f5bb981f838c40ade4a0710875147f526fbae49;
 0x234ac22358b519377341651ca93dad434807cce449087bd4384f46fc732f7997;
 0x2e0c95ffbe680fa7622598933adab2a57c472a0073bffe10c0284739b26700b6;
 0x15e0c89cc6c36a7db841d4270855d1d9b8849197f9b08131b625d5a6d9ba693e;
 0x2f8952ad83b1ffb3c1a4fbd1064faac4f1c9cc31d0ff156a17478a1e3d255117;
 0x1c7c48183ec207dab68d73aafeb96047ccf668318c084453e495ebd5f927d173;
 0xecf362a269cbb8e56c2b0537f108a412ac9a3c6e351d0d27d365a4db7cd75e8;
 0x11cd56f9dedcb991c0c6cd9c9a0def911edcb915dc1904390782a7ee90d0de8;
 0x1ee74e2178baae842dd9658694381cc93b01592c655160923d40f4af2b53eede;
 0x12a2830e24c8bf4e9c7f019526f71cc57bad7995f38c6ed20306bd7b00f0d7f7;
 0x26dba58ade8cda188f49e52fce7167b8f219dbd924d7786b0f98fb799fefa2e;
 0x14e12ee2c2f82a572d97c0b811a25584bbccc9be1b67ed1aa2141b2cc793fbc2;
 0x4f32291e7636221ba7905a9a3a1cae812ad570260c81b3ded9af33619fde33e;
 0x8a081bf1497e5210f6e0413c8b510f000fcf4a46be0a1b8442c5bc7e5fb7751;
 0x284571ffcffe707510d0feb89560623db7e3bf57c9675b02febce95fb7969e8;
 0x204b298a08577c1269dfb8ec9b4b3b502ed6fc3303544047d56d4135d3c01ab8;
 0x484b3ef7bcf5d63934bdcf53d8aa372a0b0363b0241320baa3701e8a1d0da03;
 0x9da34491e52c865a5b080cb9791a1fb80152c04335b1dabc34ffa6ad622842c;
 0x1fa3cef56374f00878372c54070d9c41c5ab9ab1d385968daf9ca2ad67d494f5;
 0x20b55b39b8df6f86a2ca381e2037d64987d1844c599feb2829648955ad16f758;
 0xff1c5369778d4fd96e295c21bef4dd4648fad9531f669e704ad2e4178674564;
 0x4c4c92112d998d5736b3f46120404369c9c0e428e47577c857509fa556a15ac;
 0x27a72f4b6e9896945e7d584e41fbd3cd5f75862fc6ec94651f5033c8da34cd05;
 0x2a1e46726ed9068504f7becf06cc70a5f645811bd65be579194b54486158599e;
 0x15dadcb67e30b77d8b1e5dd79edc36c3d8d0afb29b6e7f0207455e92a301dc93;
 0x29c1bcabaefb4954743a7a04502647c11c9f18de67e21c811c8d2b9f3ed82dad;
 0x7d089a851d1c43af05e6c9243b69b77b12f0c0b0dd25351c522ce8dd99fe5b6;
 0x1003d2e1e5368d1318992f181b7cda7786ec3e721be4bb89089bd794c6e9fc6b;
 0x1747c287ece311b5484adecef423434d71ca807924c54a53e31109e6a502ea15;
 0x134eff601bde8da30e62898b2e05c17f6e74d4ac31919c41363884ce7e30f017;
 0xa2d92f328082a3fcf5809958671e304daabfdb5708edc2cc207175526ba3e27;
 0x26dba58ade8cda188f49e52fce7167b8f219dbd924d7786b0f98fb799fefa2e;
 0x4ebed2d43be5a74e8a00caa83989f16c0b9e82194db68d072226148c0a3d710;
 0x29ab24663cace590f69751506905667079db84d33f78204a31c93e7bea1fa839;
 0x14351a07d387943cf46b65496c66bc6f3bec8ea200d622074ac2430eaf521d78;
 0x1c423576a075f1d7376168b207a6d7203712c523c67a9d38882e8642c8fcee02;
 0x2c0564f1c52ac2d9f46211743b632ff07b210916de258f83d04df68ba0e29228;
 0x7ae7e44ebe17fc24a06c9caaaf787c2f007c640faaac6bd1790793712a69525;
 0xc4e1c566871f3484afba7d364ab755b839b09c5771413b0c31ed6a0fd2f4293;
 0x17c4f2873e2da004f2eddea08a30a9cf2e05f196fd3331b6f7f1227ddd8e7fa2;
 0x26f0a8ab7b5b0ac4593c98a899ed92d839837d520c5f6f0afd65da69a1205cec;
 0x94dcf41915c6c7ffa168dc7137afa6778076c2b63ed63d1ab1b787681bd60a4;
 0x15240235912d9c5ead8feecc29a4d77d8da47e9d1909763294ea18c027f1bace;
 0x2bfec6d12a548b0fb9fd176c7200df86c3bd785d86b51b2076bd9d3e8247312a;
 0x15954dffe4cd018acc436b70b029e0146529a26cdb39151468767b88c80ac82f;
 0x1f430be26a11f722560b348b1c5b526894cb458d8a30b49887713d76368302da;
 0x1360de1351ff67b63c312a8cacc2a465bb82dfdd3d792244068292aac083c8f3;
 0xcae448f98a72597e67867a24eb6ef2c1ce5d454fcf1c9eb4d84d21ce81590c4;
 0x20e9336dd103f61a54f27fab65e5fd1a317e75fbb5b22a81fff27ae4c8afbc95;
 0x2e36c0ee853342906730e7a2061c3aa2dbdfefbdb554b3a330c0ef34bba74020;
 0x21be1082ecbbc3a316c9d73495cc08c60082e1c20ad3d4eeb55553eef1a96dd0;
 0x2c7cec0d47c779dc5b614efda39049642f1ff409a40be89cc93e29366df96dc2;
 0x26dba58ade8cda188f49e52fce7167b8f219dbd924d7786b0f98fb799fefa2e;
 0x287c8d33c0bd8b9ffcc38d1a3501b462711a41833390aa6291b5691321f34f3c;
 0x524f490297bfff16e253a88a02b039f4d7be41c62a47525d615558fbb91a31a;
 0x3a6f7a96eb42aca86cff7e2417d245dc19e8c7934e91f3dedb429ac4de7c61e;
 0x155dd1bf1b5319c5993ffd435ba45f0a0ac8d47ef063423008b858ba214844d1;
 0x1970a0db54455db508f369e376345b47d7df8dd58f6d69cce8330ed48723773;
 0xa17d8e77907e26a6c23a52ef2b39064da014f030b5785f3ced98a8daaeca3f5;
 0x199b42a0db3b829ede26736dc7fef94f2f211679cca63e75dfb6a221d4897807;
 0x1d492d7c7daa80eb64f335e9cdf306b0be4b418fb7edf32eabbf0e89df5b8e61;
 0x17c60af0291bf796fffdbc57db59d03897c671fd729bbd4c498e6069d0671ad3;
 0xc646e58e3442bf43b2255aa0b44c45c87bf5c947ca5192eb906432afb47791a;
 0x27bc23b6488e38e2ea87dcebd6360dd420d7ec90a58601eb1e312c6998a952b3;
 0x1c50a70dabeed7c79cbe2f91b2f9a1d3ca9ccad68afa0a419745160b03cc07be;
 0x120ae724abcc772ec7b0ac90719be72e9c17059b191f6e562620484e691f6e4;
 0x69f84058a0565f943c4f5cff4c939581975165144f1d21c05217d64978ad803;
 0x14a086d34d0cb4c050cf996b086aa3a21e451ae658ee0b037e7b0ec28f5905bb;
 0x2fe2f8e67ac2734b8b1f6eb408f5f62fe88780b37d4d0e3396c8561309f1392e;
 0x1b125268df7d9e01d789ba26c5956069989aa5328bbd46bb3a1c83e29b54f3b8;
 0x3006fe14ef14b876c2e1e2c7415c98b78918cec927d8b711c4e11987c2e2cc59;
 0x19332e6cc8221b23fd7926c431b68c75583036a24b7e6524527eacf775b5be7;
 0x2780775cfe1ae1fe97897c286142833fe289028ac4e51285719df14c4ec967fe;
 0x26dba58ade8cda188f49e52fce7167b8f219dbd924d7786b0f98fb799fefa2e;
 0x1474d911726d98132a38828196f72ba9ea28de0e540822b530d53431c3f787c2;
 0x29778cb7afc99ff62da1a393d60b87bb8573606ab7ad7cd0ce647bc1984cbb10;
 0x1483d10c35376ed7a027168198d871358c79afbba7885d27c01b766770646814;
 0x1a8c31c239faf47d773bdba0f70801eac0ac001c6df938463cce819a72a11591;
 0x2c58e07b869bc14bb0eeb649f5c7d9c278b6f7639874ec404ebf75f58dec4831;
 0x1d649850732837e1c07c9f303d6278bb14f5a54ca14c86a26379029023c3c6d1;
 0x14306d8668280502119170da14128f6a340f1ded7e2ba209004c42fa628b3a0c;
 0xd417ecfdcb5924437742605073656307d039e23dc9cffe05ef8416e9dba3a1b;
 0x1b5881474a4679cde79a4b63249d1f98d8b417f1161599f6725471f582019156;
 0x2c571e0b35cca4cf4ca7121c9de0c4c5aafc7fa6f75498e8ec57928fb1c67d64;
 0x2637d9a03ba20a6cd7ed99a69c38a6d70b79d05904e37c9dbf46ab2c90583770;
 0x1cde7eb4a685a52ecd269169466eaa897ca783401860eba2b6026e513d6d393e;
 0x4f817cbdfd445391ae482fe7248567a0c8b82136358d239d4ef180dde2f489d;
 0xda99ce6262676118f51f86309d5288eb65c95fddade417046403bfdbb087d7e;
 0x2505fbe37c3109a4d1d321b72070a152625ff3b0fb76ca925e5aa2c058879ada;
 0x2783007044f2d12e5db30735edac84614cdb1b19f69901e0f601efb3d44cd5b9;
 0x1e145eaedf86b1c5cabe622df4cffdd8155e6db891ff498ff0b887f4ceab124d;
 0x8bd690af3ee78b6d212cf184b969f3112d45cceb738558962382227a434540;
 0x5a5462e764a4f4780125247cb6befaab7e4dc0d26e2d75f44087af9f6187b4a;
 0x12c972140783d7889663c3c9da5cc43cd1a9740471de97908a62cc21d43e6e7d;
 0x26dba58ade8cda188f49e52fce7167b8f219dbd924d7786b0f98fb799fefa2e;
 0x16109bf9f0eed78c726bcbde7de40cadd12343460b04ba93a52d969201f97f7a;
 0x1e85f44c0c271ef8b9a9a29e3cc73b3b782c60d4ed7cc7624d6aeaff8e492030;
 0x9deb8ecc3bb2cdedba96ab5bd80b15d4abcc49b6528e84c1ed6971fb3aecb86;
 0x7ebccff0e97b9ffcbc6a2b256bf888739c0db05bc5d98d9e591bea4d74b5c7c;
 0x2124e4a429fa993d32f641febec0b25b9725342879f76afdf4e9eff7608eb81c;
 0x1f4217ea25fafd2a62aa709ef72365c70d66a4bd4d756ead776b40521b29e76d;
 0x10fdddc5f968f32bb7eb9555c0dd44462771f57424a761cd884cd0c152a35fe4;
 0x201c0f5551305ce9fe25f26526e409c0968c80b9e065553803aa38bdaff0182f;
 0x1cfeab50c568b3dd5c252b7cbbe28678939231d1287580ff6222d30821191ff;
 0x2b4c60bb89f1ab1bee21f45cf38de8335a2e85b513fe3a9624eeaa1bf6255765;
 0x285dc6058b80d18829ee46322acf51d442ec61ac331af40ffab6cd30a07ddd8b;
 0x13b9bd7d2cc334d2f60d6249ee87d05e356fd182830d3b3e9f435c6240f47603;
 0xfea707f44889ee47e8d9859c523f99c432083d85fdd6a8c75e1bb5771c10825;
 0x809a77036dcfb9ecb677ffe4e09ee7fab157ac28330abde61af824725d9e74f;
 0x152bb1a773b27f82406efdb0e1557c03a9397a6d87d461fa6f2e06ea9dd4e208;
 0x29da79b1af8bb1fd1dacddbcac71ac28de5fbe6aaa9e30f471acc532f5fe9290;
 0x252419542bfcaecc57733b02751f5142834e93f4560d7b95b85ad6423073be;
 0xc9ddd8aed9e907c27fcc361067f1b6c104c2b0a553e6d6053d2f82fd8cf1cf;
 0x2311bf775d429e2b982ca78c015cfb0a863fe4753625c4b63caf8e4ce36e37e0;
 0x2a72547e8d5bb41f0623072d419bcf39d08e5aea781b7358e95757a0664d4b23;
 0x26dba58ade8cda188f49e52fce7167b8f219dbd924d7786b0f98fb799fefa2e;
 0x13ee4f15f3b425aa17da17f6b1f5d00cf09454a9515ae5c719a2d2dcfb41112d;
 0x190daca6e75275d36dd65c372d302d698b1a03757c0b4c7689e59bc1a0169f61;
 0x994ac0e199f04446e19887d6aea50a4e94172fe29818bf60354e92ba3ec6d37;
 0x19d35ebcf34f6d72d2cc738a968ff2acee72f5a54cfede510482076fae55c450;
 0x13b39ce996b064bda9880f5a6ee1677d731851ed9c895f19add559025c0decb9;
 0xd53028037010842c02855ed8d3143166621d870199dcd06bcb970d30b8adb7;
 0x26abf84cccb79dab1c143c12cd741320c9811199329ac1b13c240f33cb0a1476;
 0x2f94d075a38862b56155e5bd18fef09e29267c0fe03259af2122abd935054209;
 0x1d073e9398a1528b81d2a14baf97ce3081340b03c22ece28408cd284c2752b32;
 0x1dbebbfaeb42d7d727f73f93ec0644264cd18a0180ec41db0a558f3b4430abd2;
 0x2fac339c24fe87e3763ae29dd6d341aca13594792f6d48c66fae31b464234fbe;
 0x89dbbd04d315a29ca4c4ab69cd041eb3f8484a1f4a726139de0103404e073b0;
 0x7b9bd575f2ab6d2e57a6112b84c02fd38e25987794b65487f4975d098578ee0;
 0x26563d3ad82384b0c3bdaaf1770c3cd5a04873b239fe06dc21900ffeca0346c5;
 0x24d55232a8e458e4738c163f81ab363774595c7b79722847e3d6341e1650c80b;
 0x15f6a6be40f74352caf5e8c0d27c8a96d233f38d778756dd8b09546416a42a75;
 0x2e195aac1f98bb6fd894b6c8c78d0339d8ad8b48f6753046eb438897ca67cfa;
 0x240c714f2346df0e0a84bfe85b6f624b177e2fbe84b253cc4dd67c84fb30e574;
 0x15f8e5e81c571e42d0ba368ff59ad375c2de65558b61c63d08117bc95de0a133;
 0xbc0472f8203755eea5f4a54c4202293e72cedce2f9e697cef329b4a2e4f365f;
 0x26dba58ade8cda188f49e52fce7167b8f219dbd924d7786b0f98fb799fefa2e;
 0xc8d9a3a7bfc7f53284d3f2d8493110979d2c58fa350b37572ba8ecb87eaf0bf;
 0x2a431044a8b80f847d099afa8c1e72d7f21894f3946b0126655720f8a6c77857;
 0x1181a1791fd2439ea67078819652478d6767154c7a9d04918373cc072d53ae2e;
 0xf0ccfb008217426f92cc5dfec764630d0861c6ff9be2459b227266741a7de7a;
 0x41f755b4afa6ff133e8e46fc826c9b3e70b45db7edb7ee2ac500e47e9844a9f;
 0x1751a37439e9124554ecb92e3006d8c560d6109b98570800c2edc590016b5709;
 0x2abf7e7390de929b5c7d29f75e5c341be84679aebf5cdf21ce295cae5881865a;
 0x173d1a4bd47ad310c1227e8d26c8c7ac003258ec98cb99c4f5da10c2fed0be99;
 0x208d34eb4ac78f934ee023480a4b55edb26e044d9a46008804113b8b3ea6e237;
 0x125616d001a18f80550970d010e57191b13574c8f737e4c82b47be6b1984fa62;
 0x671703eb5922282742b194f3c2d494840e872e60fa6e77c66fc03868c71abfa;
 0xe335455fdb0c93b70a21ae7ea60638481071649d6bb76343651667a6205ed83;
 0xe83b80d5c774f2c4e2a8c7f7dcea61c0b0f000c7bcdca6bae8781aedc2513d;
 0x58c57cfec4eb7be81eea51addafb135b89b2c5a111bca597f5212eed8547da5;
 0xb1f27ab7d0817ea3f949179fc135b60938c8c20bb9cc0cec20b1bc8c5fad7c1;
 0xae5de9d9b873cc4211b1fd9fb2e0717ce46072da5f7d8610560c9582b7f06ee;
 0x4e515f4aa39a0a8667cf06abff04d87ebef4d85dc32ce64a80be9073b8e0163;
 0x19f6c6c86ba20bec8725fefa5ee70cd0b1bb88b9b20847927e963ecc6f46d376;
 0xb97af80e65d5a12a9178351fe47f3c6741b18408ef108cd73a56a785f657fe2;
 0x11001edf4b5785917fb4ba3f1cb07e46f8f038edd5eba9c657dc39b3f6a254c1;
 0x26dba58ade8cda188f49e52fce7167b8f219dbd924d7786b0f98fb799fefa2e;
 0x1f57e91f818cb6ec2ea89a4c5248e21db4ad238c11e2824455224c316c6de448;
 0xbcbc929529eeab2f4001235f0dc786e792af2641c0db97dbb1780aa611ac51e;
 0x2ffec2a43cb616c220af4bef1265a368c46b0d1c049e79d489bd62e461669061;
 0x18cfa39baabd3a1f352d1ff2571411e36ff0c72a2796a40e9fc2238d89d99383;
 0x26d86eeda466378285e93d468c3686ab5f649a40ed46a52c29c2b9aed41391cf;
 0x2120bae48bc4d0b019112e48f3daef5b38b9991285c3d03e150a21fc03826de9;
 0x2872ab1dad0eebe81027996467b9767b38ec6dfbefb43d9537d0ceff4b0d8032;
 0xcadd0bbb15b10a2a3b5976ced621686e190691ddcf2911a6d7911aace0ee731;
 0x12f83ac35b2e971f68f375e239c28cbfc8010f2d20a609ffa4bf3ca8078870d;
 0x247b58e9d413e3b9647f7204b141fb1599eea15d505520b47d61c11aea6b1eaa;
 0x13e4b5310fafb562358633169e17e3431a821e301a178c33279f5485290de69;
 0x1da54e38f590b18af24713a270573e2c12e2b569b0e90992eb88312117269373;
 0x28b85a60621eb6d7d4633f180f515bac0757a3377dfd68181bf6a65a9599121d;
 0x1a152410d786dc50b32af794cea9b7fcb7fa48231d536b3c18dbcc7509606036;
 0x92699deed292bfeeb718c76b997538a59e7ac548342832dafd64637e738f1a0;
 0x774bf3637103073fe707caa2d322d9a9044e4bd92d81c1e0ba56467c591a487;
 0x1a2f16440b008c3f42154123ee5c0c0f06eca84795d9b104c43857bf528cf79b;
 0x149a1d50c2c217a068dd2ebce1907172d58fd0a3123debf849d13d873648a8bc;
 0x246086052d1ce8675e03b097029adfed9a97c8f67f606d7093f6e412a7b4bb8d;
 0xe2a84c4e9aa19be7da3e5d4dd74a495d308369e4b26a165dab9c4238eafa4ed;
 0x26dba58ade8cda188f49e52fce7167b8f219dbd924d7786b0f98fb799fefa2e;
 0xa62dc9863ad7e45ef7f77431acd332fc30280f65ef1ceda4ccdea63b3ceed3;
 0x1b2446bbff67b4093c04a6f3e904075a796c5e28a5a6e586d6440753ba97551c;
 0x165b84f51091009c389eabcd7fbbc992996fe32d9f8435354368e1e5b1dcd59a;
 0xc193a00c3e7e8e353d0475afadbe369f9a5d17169a169ec197977619136eff3;
 0x2088473c2b6a6ae33c857f94f2f12b90d7f5ee0569d96d801fa8b87194fc4595;
 0x8787d2cebcabac086e9e7e1fafc216e3f8fe5335bd4642dfd1708a82a5371eb;
 0x11191767947a0e4f9c3f782d1abd55624b55ff7087f34478ce0a7aa7b2715cc4;
 0x2d28a1d818e8eb1efff60aaaff9483679cd5d77a701688dd53df7a9df567f5e1;
 0x2fe813fab1011dc74f8a18e5b039dd373f0070ab1dd4fd126718a087cb2b8f9;
 0x170e6e3fcd10c27d012f844c21af6850284e6b19fd5d1fe8258861d9db249136;
 0x107d6816c1e3db9ea8bdc485fdbcc7f13e6134e807d7e4d686c587b4b02174;
 0x19758af0d83c9505493b5419c17e6c4dd7f2ff338e60e9609259dcf15f33cb96;
 0x94462f324ece93eddd9764f77d342e248121b7f1dede3f149571a9d9890ba7e;
 0x86086b36fcdb387c6dfa2ff39c4910fd0af2fb3ecdedf957350e20ad3c843a;
 0x2e3cfaefc61b8b4800158fede4808cedd9d7cb5b2280c9b1590e0429a83b3db0;
 0x828cdea83f97fbf72dbdafad73f0954b8849f09a7f12c3bae6989012f8d9fc0;
 0x462d87fc2c8185981a6d5efc6e31654b2696a1c42ae60b99eda523fd8c13ec7;
 0xe8224f268418104de9a75f6bd915d2861e8e74a74057319dec312cf8be4dfc;
 0x89163233ad979f94876f77c9717a7cc3171425a1b484d1050f7550e31c5b42a;
 0x13f4fd6d8abcafc2d57797c252abf6319f2d2122dd71b15bec6dde9544f60448;
 0x26dba58ade8cda188f49e52fce7167b8f219dbd924d7786b0f98fb799fefa2e;
 0x2cd268e81100d72c444d6246f8003ebbc08c1b5b5850a508f162541e43804c31;
 0xdece92e3458e7d6e3ed03f44c57b6a597f2a0851662e51f30c7e345ab3fc44e;
 0x2782c56f48794e225a91ffec94d427fbc775704a57e24c93a1092b003ffbba12;
 0xdea062e2b07f7c6afba58a89e4f46c9586b6ff9abca5d59ed857f5b65e618f2;
 0x53f7495e4b1275b15b3f9cd75aa20f9f7693363d4311764a772f2956af6fac5;
 0x2d8223dd32694c54cbca71235970b8f70f1a7428bd738646ca6a862f46f64ded;
 0x230d3770de4960732ed1114493287bcba5a8b219308f15bdf3d66ab0303845e3;
 0xa08b786f3debb023c5ac7f28402aeed473d83cf7345cc4e3ff319ef710c8e92;
 0x1abec3768c3f0fb09fb3f77f12a70683a00aa39dfa9bb1df8ec678d38d2f59aa;
 0x285759f5a94427ddcf1462454842a9d1f953a3d2f7ec048846fd78d01a0493e2;
 0x2b4f0d69284e2851b5e39f369bc98b54d589c08c487f8c89d1eb0c873cc4be5d;
 0x447dbf76029e36fa2eaa60a6235e5462decefe44e558246910c8f6d57b00875;
 0x275415ec216217739aa767153b11ae80c6b8b5c55c70f2b971c41ebe8e2b6af5;
 0x1a7afd3f33137e9fdcb3dc28cadb4a2dc634ec68033c4121f2e55e1fad47d19f;
 0xda8b0bf0f0197a311ecf8a70c17d6b73882fa3d36a2966583161a3f767a5cdc;
 0x2dc11aa7fc35288f4c50ead3bec7cc0e75b9e52e8a3fddb61492ba94948d5ada;
 0x195f7447bdebfa31bd8bb43dd8d1e6875c5c135b15c3b4d609d52345559d71b5;
 0xfb172e6709df3831ca8632986ef7d85745139a51a45c169c830c4e691b451aa;
 0x88051acf2f4c7ba673361201ff1639e06fa376b2a6505a1e62038906a31cc95;
 0x19e57228a8198e58cb5bccca90c63d15e07a0f3e6d5d130d973db1a831af0bab;
 0x26dba58ade8cda188f49e52fce7167b8f219dbd924d7786b0f98fb799fefa2e;
 0x22e5666a758743c42fdb3096ec7a7e4266ad74824b6be3619435d172f438e2d4;
 0x13ea60e7594766cadf7e4aa1f9f005f9d9e06177456cb4a43d919b4538492a06;
 0xff1eeeb246ed508d96db973e2c50b126fa55bc7094854acba766574c0889a7b;
 0xaffdc5342a12d31f878c045e76796ad01bd19a313b08cbe6071c9fa06d37178;
 0x291973a60e03d9e088f91cf2e0d5d4b814b2d84bb97aec7993175e5d6dc519f;
 0x11739b8ee3040e282f6d5039784f6b749c3a4d6befe0ec6276270da24f8772be;
 0xe74e778ce3b28a1acf824de6d089b276e535117c55c361debf0a40573c67eb3;
 0x1a527cc72db1098870ef84543fa630c207a6094df73caca62c47ebfe12c4dabe;
 0x12f701614f5391cc72251c38e11391e9aa2d1703c47e84a041ab471ed77450a4;
 0x11936336d54527a9299aed9f52635b8a53f9a958598336c9848564b86516ceb4;
 0x272318da87365e9fd6249ec7615961b138ae0c7a36b5175ef5465898c711be04;
 0x236b144cf42999283d59501e46fe4ea1d60003599b4046d7a60373f0688093ae;
 0x1a239569e5888ba9ff7c90a4aeb505659415da6efcd3c101e791228149b35b61;
 0x1e9e91cc7f554dc236e84f167e2baecef5a26769296b73a94648d454028ccf34;
 0x148af5b46862ea8269491067a96aa3e71f424fe1bee820cd988fd8b19527bb5b;
 0x24772a606417d978acf26d46756665b3c414dce37ee779c91e98a4caf803b6e5;
 0x1ed8140073fb5244cba84342b2727e8258108dfb63d1daa824f4330932a7f292;
 0x109b45b57572882b3de57c6d043e9477acc341231247aadf512cfefb46159244;
 0x12563836d2c2fe6d077a81786800dbbc8e90d758a5a323f549f9b8d523b630b0;
 0x1ba00aa80b49e70bd2b3748968ce6d19e9d3fdae0bdbc10cc50e90dde09dfe0;
 0x26dba58ade8cda188f49e52fce7167b8f219dbd924d7786b0f98fb799fefa2e;
 0xf24297c2abe65471b0746d085d394de0919936ec477876d32f44707fe0bf799;
 0x20eb0b298c48450c7f613bf10e04bdd22ed3115756fa21731aedc3ffbe7cba27;
 0x176482f9dab80cb5c4d91f707575f2a2b552fced3c3b96a5bf37f9b80fcc9f64;
 0x1f79915591cfa6648201a28d89355cbc6875e30f78d96a32c3f108bb3a8d5a76;
 0x2961cce7579ff9f9f0e867a02cfa8bb2e7401cacee24f5556e9d2fce5d0cec8f;
 0x2a41178e5d6a04a7a1463ca1799dd1ba6a7b5c4782097e585793f987485559b4;
 0xec4ae2219594ec22f648bc1fd42b82673c47d95bf48e9efdc39e0da9406eae1;
 0x261794a9029605c2a4aad5463047d0cb96f9da25f3b18f391047e684519a6e05;
 0x2e2bf6b18878b8335e40349e7f475e2c85cc279f99f76c0bb717d0ff7866e5e4;
 0x153ca309df24c9e664025e69edcc363ca33cc1a9a2bef69b44f607830195235;
 0x2db12f885abe64af44a3ee3f8478b92cc71fd91b096d65099be20ef87c64628c;
 0x1f2c5b4c49bf8be7e7d4d9f83e18e6ff0c70ce913f2e246e65024ce32e0b231f;
 0x9180876813742a23b9376d01579ef57c1fb39a60e825320fa0eaca8953152e3;
 0x2ddf635158aef59c7d8a6de274b34eb7a5d0088a7fc4b0f7f4ce699a18e73a5f;
 0x77f3965e42d9f1951cc9528c4a10b099bf49f4eb00e54d389af199a8a474125;
 0x23b552370636186071152d808dcf55927b95422529bbe9900d1a1244532efa2a;
 0x10b40997e86c5be3b64959e84b6ff95dc3afd77d7a8f708ba81d649075c74ebd;
 0x19e7c76c1b1e67f86073187b4f730e17bab59bf1fa5a00365be2f3541983633d;
 0x1c1b3ca31b5179b6dcb9ee3ab883ad56a355810877c058d64e345815eb365f91;
 0x75afbdbd2dab2064406909fe766072f532bccffa959708bd53863b53f1323c1;
 0x26dba58ade8cda188f49e52fce7167b8f219dbd924d7786b0f98fb799fefa2e;
 0x2d6bd5f440b052c36e1896ae00904b584661666912e14b5a76917f2a4023a975;
 0x9fadca902762e1b9b2ea83254c1422c3fdb99ab470149b91d818f74c166448b;
 0x1fc2ef7556e6b217f26c4ce8b049b857fa69b7f22ae9665d8fe061e57ccd86b8;
 0x277e0a5d5df37f2272903866a0f10472e3e4d61505b48279dd78f9e5eb18dc6d;
 0x1926393f89d142b831b5a9463ae3860bb088973ee5ee9008f0e1c7965c79be27;
 0x2917f5ea018334c0f05c07baf8c846d354e3945fbd67d5a22d058a793275a35;
 0xf1816fcf77643185cbcd7f0b141007670a027cc2891280006f4e0fb6f700113;
 0xe5eddd2746b7345563203a3a02ba3f3be5c9de6fa3d6819c1dc8c10ca61962;
 0x2fc0ffd1f2fb9e525e97afb88c5c1f16369b7864f845a922f56af6b567abb127;
 0x13a6d507cf38dd7ab84c4fe55fc37ccc00e54ff9114fb7dda131aafaf5e3d8b4;
 0x209e31eb994b1224949ef724609a754624b12e3e96aaa426519369d729d7f0d6;
 0x29b95c4e0998e017f9a6efa329e997d750c315a7091995543108bbf2ef92ea5f;
 0x273017f65d54a8a19e933a2850fe33bcdc56245fc66dd40bd16d1963065a8215;
 0x9a00a7bb4d3c41d31473d0c97194d90a94a4348aed808ae2d9b68d66ac6da34;
 0x58f37eb54a0d174ad881009a16e033b0413350052445162508f2e3f1fbd13a8;
 0x2991d56ab55bed4794d78fbe8ba2d84e0402b704c63e8bb477815b94c0b6e72b;
 0x2cf9ac97f208cbe23d5daadf7ce8eaf17b949ea0694202d6d3b4f6802c20c8f1;
 0x2b2ffc8ad52ca2742997d3fb13e13abcb7c44ffea14776362b6bd9e1c5aad18c;
 0x3f78a9a65aa3f5e30ce1ba2779ac3c5f275ab77961819dd01638a42d14fea57;
 0x28a9d40e9c58592742de7987c8acdc7fa5e622f5e87508936c5c90e5a2b0111d;
 0x26dba58ade8cda188f49e52fce7167b8f219dbd924d7786b0f98fb799fefa2e;
 0x2da971edce5951e175b20231e2caecdd672054df0a81abceac87182f9bf2ab39;
 0x4852b72a76fcfca8332cf2fca53426d44a81025b049c6fe56186da6b592b8ed;
 0x12678cd0dd103dbf00c083c3d563aaaa6e6e39e940c80c14575ea53f7da93714;
 0x63be8111dc061b7b1f827eba7cc5e10703843b6878cf85160b1d8c37f8cf20a;
 0x1292d1489e40b2b7a96a47889a8c08c9bb62ba92c2fb6ca290d3026828b90a38;
 0x131928f8c7f6b292af217e6a3798bb3c3740fe744c9754f71e964e739fa84c7c;
 0x9dd09c082e6ef61242bae94103d3413d8e280c3d824f566b6191d86c3e52e7f;
 0x13a9b7f650fbebb1c30c63886605cfe65fb13044bbf58f6b6d6d4754a8803d9a;
 0x278e646f62cd15b671eab2feb4b10833606a737023c50356dbcc6802c47e22e8;
 0x63a048acaaba44b87639a3d246f7bf5721b2dfef3bc6387eb9a7a1753bc9edc;
 0x19137d8c7c05b4380c5427ba3589505a29927ad701293341a797f8dfc6b64eaa;
 0x4605aab2cbf1c8db31f3530518b1b058e8a9fdd52380d4365e7faf99ab86431;
 0x1a662725c05570d0cb0ce0e3cb83f5a9a0d641d7f7b5f0395b3cbaf27ee8e7a1;
 0x2f00701e4012136574084fcdcfdb8a03d4370327b6778f7dbe08468a3a221d3c;
 0xeeb43bee0ce1170554f5365901cc66aad614c7db44ee7d933114e56ae13645f;
 0x514bd58df752da3a43dd75147804956f833e61091c33e8b6ebc059d1668c3b0;
 0x2e501a1cb67757564a27a930415497ad671f61899a37206e4bd4f70525dac248;
 0x16d477454abad4ab36e15a385dfeb9d8ecbbd645a459befd544456bad6de8e6d;
 0x3c052112963b411255ac9f4937ba4162dcf4dc56fdfb5f11f585a2f973d1ceb;
 0x12dbfa8b1f22ca2b3338b85b1a1cd75ff557cbb18bf220312b18a91a24d55d81;
 0x26dba58ade8cda188f49e52fce7167b8f219dbd924d7786b0f98fb799fefa2e;
 0x10818548ab73fd03d26ee40e1a406f294dfd8c805e21f8689f1001d1d3808e16;
 0x24a35e4eb8df49312d9fefc8887e52fe90b836c0cff7f7c07a848a14b01fcbe8;
 0x2e0f1e7d21d2d04fce40c67c3746330043b7168c16650a4f2c9dbc17eaeeef9e;
 0x230af3cc2c7ce9edb2179f8615ae8a62e458eb13c246f9b673170f1466dfa17;
 0x1134692f5f1f941f285cc493c3f2327065c452ad32cf715486dcebfc2d36e000;
 0xa9d37ced0d525c9d8577b969975227cbfef65e389d902e6c4aadd01322e8ae4;
 0x1db2e2b5cd0288b1d7c7faf003be7703b5c5e45ed5cd77c0f47bb8d3f2703afd;
 0x12d629c5fe0a3943083c96e3e532897bb2f63db5519122159b61723410ada8;
 0x54da7deba9f7f2f2e2180728042a935674a8446804c3cc47c9d15178e8d6666;
 0x29fc7ab2d3d544f25354a989848126e23d60efc67d30c1d7e6dec4f01c8bd52a;
 0x14dc9c3565c4d246607923146b654a06c3a6f33ff2e7b285cc339e7e045b10f3;
 0x257f594d047a720f1ef7ae56ee5cebea62ac2239715a55b1ffcb394af09ac0b0;
 0x1202ed4a356316e5710f9f1a5727b083c1ab217050e8bbe7d95ff5f826c77669;
 0x30fe2beb49b890033bbdd087b9e263add126966570888915b43101888b8b962;
 0x5ca2c86c6b813c5ab7ecc7fa53fbafef3678c328accc49fa70b5f71a1e368dd;
 0x22b38b500c9b360fc2b4ac16b0f8fe71e8e30a9a5fffb2275f40112e01c59f71;
 0x1a85a376a332e4ed41c5b9e85dbc2806bb3c3c6f38c7f251fba31eb492d2811;
 0x30b8dd372a1546b35d430c7592b24a762c0e748b857190aa47ba294da43f9bc;
 0x58804d2aa2f1e9d511cb4bf4459d8747a00af3f8cefa52c3af281d7b71a468e;
 0x2be9874c17f4811897b082ce47809991d57d081de49d4f9259bac0c2bbb69e4d;
 0x26dba58ade8cda188f49e52fce7167b8f219dbd924d7786b0f98fb799fefa2e;
 0x10127c52ea1f6d2ae8cb3a7af70916ab29fd85fbde5d15596076ce30524ade37;
 0x2d887f38f4f5c278b142bb09fa17210717bc38dedc721327c34b5af25fa4975f;
 0x18413dd99e547cd6112c9b3890a4a927660153967a2fa3cc78281aa3743b7ca;
 0x2c8375bf705e811aea8583b90f6004ca186f06ba9005d92cf3ce7317b4fbeea4;
 0x26672152eee139f933ea3a888e343a211776aa698206a6b970cde470ad510e72;
 0x179472871d26f2e278673df45769f49f3943f98b5bc9e76bc7bd639f5cb94a3f;
 0x1ed0f4a870226c8afae5b2719e3aa60c8a4f3f491290ecb6a6fa8ed8fec32f0f;
 0x1e8ab7c5158984fd536a1fcba52e4a9a99d2406c681d0d54c194a1378aae7bf7;
 0x6e50409b0cc763889daeec7624be727dce09632fe17945329fbbbba7336b56c;
 0x5ef96066a1106782bd7942af6ee88ae6c642890863ded5c908a70f0e97188f7;
 0x275a393c79c2e975e32088fa28e808ef7b3a28ed55d7908b3304c6270b68474;
 0x232f41ac9fb55828ad89fb910fd53a80463ad16ad787e2869f315a59ce7766d6;
 0x275bb8e491e9023da98884c13b73892f2b1eb2e77dd1dda8b5095bf5c9adc9b;
 0x761b386807668eee2b21b55ffc77eac91c6081c52308c6dbafc6c07028b4e3a;
 0x493e9a3b80d179228d2a81e903a9fe8d65ad2dd99a733e8ffe044ec71a668f4;
 0x304413ebc59f08c82a9e2356ea09341910ff74938709f03599a4f0524ec719a8;
 0x2d1e1f38f6702b847019dd697437b90bbb302f642fe0d71df7faced0a3dad14c;
 0x16ac849076bc69c52529d4baa1c20d39991d1d1bdc92c8e0ff1c5bcad374f25b;
 0x1a85ec6762d6cbe146dc87cd11c2b2daa1ea599f611965a59bcfc3355a684318;
 0x196530945d3d7b35c950174d0b08a4e423a8ea2bcb1d455f4b5e042d66cf2ca0;
 0x26dba58ade8cda188f49e52fce7167b8f219dbd924d7786b0f98fb799fefa2e;
 0x7052091360f5985cd717c188ee4aa7b12542f1ff3dad0a1996b00fde6e3652b;
 0x291b5860cdbc43b0f0e3d258bdf8f8b58c839a56779bab5f918e042293b9868e;
 0xd74d3b457f71267a00679f5b34b57cd193626e69dff827153cb0a07245f97a5;
 0x6063d52c65712f8ea7af7b3405c330f3a0e1e4a1652cc21d3dc5e0f60cdbf76;
 0x66b0a3103e081f9125c429640d2db5993037180131ed22bdd413d33d6a830e9;
 0x1a1ec3ab8c7e73bee5257c0669cb9e5958eed3d51d6b8bb1a43f2683e2082a4;
 0x25bcddfb7d8a0a191d30fd1325f71e08124ad4b099485d80f41ac677e0094152;
 0x10436855078393e34186a26936181b385e1f4babccecf88b189a51b052d6931b;
 0x13fd2892c02f51e42d36d9d6986a773f1cf644bcbcca74318c486e1b1887a8d0;
 0x2c28f6b8646fe071a4d6eeaabc22f4398d09adc041da503fa5e13d55f280424a;
 0x8283969c57b0158cd5bf0dd9ee3bf1d6008dcc45c1ef3288de7d1be2423832f;
 0x1130ad17e3000bea708aa2ea9293faa1bb33c9fa734c13ad351f0409c649ca65;
 0x741c5c7d36f11cdc84ec58d9e6d7428f8cf2d15110ec45d7218f7991be58206;
 0x1f449a6d7afec87c3391d5f306fcaa5ba7498feae544c6048dbdc847c7dad3ce;
 0x13c20e3e2bc12fc0d3ef6ba869311fbc5b6a3a4d779dafed35a96098e97f2167;
 0x1fdabc23fa86f1b12e840c491a7d7bc267bdccf6eb113729e41f09eb416c0d90;
 0xb18abdac519be96bae35d898d40a26e9d9e0561f6934be88da9a5c24e498652;
 0x28b6810fffb6ed56cb0ab3df49bbeee7cf4f978461189f205aec741cbe843202;
 0xbec82d9037048c805a293a708427fbfb95dea117a6dcd1e6f34f13fc9e088f8;
 0x2f63a41ae9a12da286de92e8e7d65162eef3e275eeda01b2f1dde4a6b69826de;
 0x26dba58ade8cda188f49e52fce7167b8f219dbd924d7786b0f98fb799fefa2e;
 0x265c4fc58d97632fcf19a923a0667b9e9b28b7add612d7a71061bc93a8db0d34;
 0x12885bff48b6298f10b722b699ea5cfefd234005c83ff78a16da563a95758d70;
 0x151d53cc6bbeda594c839f198afdf5419d1c87ca6c45e23b4b5df9ce6590fa24;
 0x14d55af045f1dfd8f49d4f256e081a6b3ed093f01a72e9e7fa95964d274b990e;
 0xd2eabd86f01fa64ba065b8ed26f82ce2fc47e9e016448e3d727a7c66a7abdd6;
 0x28b3060c2dcb657bf0ad4e015552f6c057d08d94e6a7aa8f65ccaf576ae19c9;
 0x29999685e5c96a1b905f85dc5bd585d018468c52eaf77a65a6a7f7252d015006;
 0x2cc36566d5372f76a5bdd4fad63e709b1c9a1fd8c638d508d11386a963949d17;
 0xf45e1a65d563313981d7fbd8646e8b6c0a513e921fa4d91d06d1def1ac535fb;
 0xbe5a47fdf5f5ebb05760335c19650934d3c9fd5bf6a947d230ec07b04b63361;
 0x8e06c579f1e6e0130c801b93e325ccba4488227d52279b600cea03c02f55841;
 0x2f50f7000c45cd941aedbfe73b0022a95ef948e1672e5e4ae7f818c5af7a5da0;
 0x10e83f3ecde3d5babb785328a70cad7f1266ada3811812961cdd561855792100;
 0x2391b1a42d1ad62765e51ebd3fcaec9feda26eb1a8e4bc397b4a7692e5036354;
 0x5dd281f4536f0e512cf632d8fc3bc3b198fcd503172259acd0a43f6f3b2ca8d;
 0x1805c870c9eaa246e93fe07b6de600b300eb1d2cc768abb8a325d1b35a73a383;
 0x735b3cb5309a63477b17662d70e873a588e82e15bc083fca92f3b1272de5930;
 0x15a7b08ffbfad70da2050e2c609621cc2817e9fab3f8e06f0f7d37599f374039;
 0x1c7725a85e6a7f0ebaac87408b38e5e6ecfb4de63ab1819008926a7d1ed9162b;
 0x2371b576f67ab802e647290dc0ca0728bf11fa282a106e52567e430aa5cd6df9;
 0x26dba58ade8cda188f49e52fce7167b8f219dbd924d7786b0f98fb799fefa2e;
 0x2d76222e6f0ba0ffd8667c9cfb2a8bf2ffccc92e74cde3aaf9d515f6770be25b;
 0x21a9df030fc2c38623949ccc0e27da5c02225e2e4cb94258767e67046b1c9ad7;
 0xc994ae387461d0c7104186c1f4e140f224a0c8590490a5d28bf872596eae2d;
 0x27c61ff34f721d9b86250fdf7a433505b8fa72ebe9a28c0f8f9a5a86e25bd642;
 0x115aa7aae6b9596eca97b6726a631722dae0a8f630a3368604dbcaa9811a851f;
 0x18ce760e701aecf766400d3c8303e28aa7937c3c89c3109a5f0b8f9209729faa;
 0x2e8d27465c96902538919868872618261b07e2771f087e9686a07b02744a0149;
 0x100661eb6f7639b3cddca06469b717369b84248f18a9a0250198228d8580de14;
 0xbba9475dd449868c67d4d7394ed448eaafd0384f417ab5ec3582db8962e423;
 0x2ec4cea2ec233f82b5c3afc658cf0f1d5056dfe434c209ee3d3ae5101c5d38a9;
 0x15a99df7e6b5ef0315db045932d7a24de603b0b6897f567626fd1dd9f47c8553;
 0x1be6d866794b25f0ad77226028183b38ba4faffe5a4375d4b2560306acde3c5f;
 0x27257e94b2e95e861b7120ed9762d8c4c94080b7612d9b58d00691fbeef97374;
 0x3af51f300cd6fcb4ea567e6c8513d81dad94aa1d0c125a8408cdf1ed9f103e2;
 0x193b1cb5ebd78dbe0428c993ddefd3df2414c558078f757b3f8035b047090913;
 0xdc86ca1c3c10a634dba579115794017366d06315b67d84381f4e3d530800e52;
 0x1235404239a1bd35d8a5d7e41fbf7979bc1132e1316236fce4704951990487e4;
 0x17e965fa385145f2d79704557938893089dd6a9411e1a4054614bba0f1453b45;
 0x17cf6ef863dfc27d9e23767c80219a62279a7c1df9553c8c3fba34d8d80706f7;
 0x568c86457d66bf962613ccfcf294e2bdfdc444406b20a6563eb382164f6b38;
 0x26dba58ade8cda188f49e52fce7167b8f219dbd924d7786b0f98fb799fefa2e;
 0x2f5139526746698879515dc547fc4a18a47bb7b1069cf42d88c1699f37bf70e2;
 0xe9ec645e63a3358158ca6bc99b354570c61b50ae0b66a9b2cdbd5b7bd2528f6;
 0x110bf55f969e6beb814a08bedfcc429368f8a65317d9df987fdf690464e82792;
 0x50a2f40f3337b14663877a5c5c66bbad6bd40810303fc9077996384fb942223;
 0x9fa261cf5150dae90270799121e56745c2e3aff6c6edeb0d9f37ad73f2e92b7;
 0x18db0fda1f48a43c15c1d72d7a8e8ec2042ceedc57f08cde78484f8a0175afe0;
 0x12cd152e6a482b22678e14feb1d2b463560eb39b0a27bd82dc9cc6791c70e234;
 0x208785a8e7d01f556b883d201a43071c922863abb6b5b9d62b06cdbe1ca198cb;
 0xa2f6f2777331ff62db3918731dfb0f8981e3f15b0715a44a3e076abf1e29710;
 0x2e40f60a955d8717e55b97ff156a8bd9c6f2e806d042d0213ceef2356fc97f74;
 0x15b824ec28269dd4d8e6a563169d415cad68d9c1c7aee1aa279b76abed3cee6f;
 0xcb83c1917e41f61a32024d11b6d8f43c8a9e9547568b817ea72b3ac253edbe4;
 0x131c6c3ae3535f15bb791ba5c1f52051635c44d8e13e7c28d60812a763cf62fa;
 0x274de569e20256784aca3a5ddca5222476b2c06e6976e4b5332578eb744ba058;
 0x4cd6d293061e45cdf3f30796a24e66007a0aeff1b9c7cf7cc869dda589a8d14;
 0x2045eab29038ee2c289a564f10fa0ba6377679514a389b836dd6998b4799a07d;
 0x20f10e37bae5a8193adb95b06981b0f7623baf32b69b61a11696e7a8795494bb;
 0x1f55e36adac5b9b352d7cbe55651b680c4b342c335bd8562fb45aadd3e83e619;
 0x29602ba7068d0b754d8a59a67b5cb83de5a6d86092f8ba5da32960ac4237e424;
 0x16707fcaee953e548b9f04c22b714507ad45c63e242d1f386fe813701e59d18c;
 0x26dba58ade8cda188f49e52fce7167b8f219dbd924d7786b0f98fb799fefa2e;
 0x26443bd83569c93383cc8cd7a2e05eb2bcead4621e70cc188f6405c89e778a7a;
 0x5a35d0e22be0f9bd2528eb55583ced870d362ee72476e9706625e49bc556498;
 0x1021e56558839fc8b5fb2205d2c799e3b31e7657cfa3106b0651ca9f6e9def53;
 0xa4aa165b7771c0810e9caf04fdc8d6b4fa87e2b88cc08aba3c8ec908739be27;
 0xb711cd6dc591dcf07f400fabe5cc8b78ec01724bb2b9e62d11456b6de351974;
 0xdb4f89a973ddb25f113a6df8e80aa798cd2107439ca4c3a7cb4787f23148c72;
 0x24580560fa1df7a3a4921875187ef0cad6db94f0bf7348fb7aeb4c9e31bd8dd4;
 0x1de8c3e482d87d19a3348c786983ba4bae3ab00870d28ae3dc18bdbc0c8561e;
 0x35ec9a49296b184f2225b3d68de6d1d5a623236576d838e557b150893bea66c;
 0x1f7f2e438c0695e2057f62a661aa8e85793ec168e2aac1ce06ef7ddbdad1e115;
 0xdba6ba79098331b4dc93515778b2497c38c3ddb2b20e6dc9df6ed5ad85c32b5;
 0x22fa5dcd5070a8f46ad637e3cbf69c256afc6ab58dc0b0d98ff15740abee7e59;
 0x26a5fd93dff7f5eb49942b51b03b98e9cd2ab261d56db7516afb897ac2706ef9;
 0x2216a1a787d05bbccce19eff5d852b92e317606d55c6b5b3fb02afd41e69721e;
 0x2228040c2cc6457ecb0acf3ef4699eab804d0251bc75025ea928d16d15065953;
 0x1c20e02da095541abc6481a5c1594ceaa688ec99b43ffce38b098ba817af0477;
 0x106f19142419a86a234f4c8b94c9ad6f3b6f4dab9e47ff3c9d6669bed5ff3795;
 0x104c7b997f5f83d8da35fab234f56c49716df4b0a7318bdae91786b0a007f857;
 0x272b659e78a33f1541fcf58f4cb3e64e806f3cd0e2438dce20a9ab7d416a3080;
 0x1249186ebedf49fac85f76d0e10ade878518daa306d2b586e295868576a13ea9;
 0x26dba58ade8cda188f49e52fce7167b8f219dbd924d7786b0f98fb799fefa2e;
 0x1490ad8e9d330e2beaad58cbcbabda75796a6e00166bd7b9de35c84dca1fb7e4;
 0x29cedacd10b839b576f81408dba8ff1cd699b9b0b11e16e5267c217e574a559f;
 0xd55f5e0d31ed8c032f1b31ebc07fcb088feba88583dd5815f85431f3829cdbd;
 0x22c2de78b8f8caee3778d4825710b080807cd14bfb6080488f99e303dea9c4e3;
 0x256bf262a0b931d87affd8233c61534d9f5f33a3ffe59460ca8af7d0d3ba946f;
 0x259e4f6cfcc7a4b6d2246333479df052ee0477b9ee8faa7f47da45d1495d909;
 0x235e716b22b67894aef5bcad49467c7c9e8fb689bfc03f058176c9b2f2cfa6de;
 0x91246bee1d5f4063a2ab453e658c50c994dae678cfa15b73b14b0f48408e18d;
 0x1594541dd396d5948b6b0172b31330333f099973d8a3a1a9d299bba6f45d1bde;
 0x24cc95bb62ee85ac17d1e8c36c15cc50c8c66c7cb12e08f2a8b865653cca586b;
 0x2dba892c4f9bc80cdfa40ee9aa9b1c37f0d4ea781c3fbe5ec7ebda39e2272dba;
 0x2f3f255428b447ee2819975595dddeef9fa3cbd71b62f34aee8594771d350a27;
 0x2f4b81914b52b75c46b6ebcb52605d073fb458f8b1cbf68fb9db225e4919b8b8;
 0x1e35a658cb61031459363447cde6165233b2bb5107c6dbb4c2d50c459940f2a5;
 0x21938bd170ef0b687752b8714b803b82a4358bf72b74265a4623d5594de772ef;
 0xd54bc01b18dcf2553834c7a2330ac8163083186d738637650ae7bbb67e69c01;
 0x166ef423ea8ce954adec38214c8412bcb52dfc2af3ad407cc94edf187e4d825a;
 0x304b27a7490ba0e5c20d3b273abc31ab57d4c9c39f2928b81ace40b26ae3454;
 0x1873ef347ff8231585a15dd61cb7140998b4a07d1ffe2045dd368594edc0f171;
 0x67a470e0c4795e245e75c97cb69745c9d9bab71c1b8836aeff01be895f3634;
 0x26dba58ade8cda188f49e52fce7167b8f219dbd924d7786b0f98fb799fefa2e;
 0x14189f783f0179d6a700e43b6f3412af189203e47b5f6bffaccbb0faa6cf850d;
 0x121bc25b16a45c18843035e84ea0f03e550b85c5d5d865c391608764d8f9da3e;
 0x2e7705b125455c88939ebff9c94d94b32cd19988de9033421ad2497299e1c07e;
 0x4de92a097cbcd0eda877c95e7d7c623205a82e9264d48093144c02affe35f46;
 0x56267827dfdd2c8e13c31ffee09c665605e6d0f76ecfce63a1a3e0ff9ba083a;
 0x214e0300f805ffc715666db69a32b5ded6c1a5e46ce21278ef56df4cf75d6d7c;
 0xa3e3961aed3e8da84d9b2fe01de35febafd742ba83c0cfcd82c48142cf1c42a;
 0x2ec69abd5acb3679c257c3814520f5a2d4e15a9e1eda480e25744cc31074d12c;
 0x1c68a794990b7866dd921b417960123999f52f198f279489f00d5db71205a6ad;
 0x11838fb23d5f3322bbecdb09dd7f8b581465c87a0f6db0216e23c9231aaa5584;
 0x5088200a18b6f27d2d094a42fec2247f9b19a17a2f85f9827bf372ff495e118;
 0x20a562ef82e57831ee85dfb0b18b716e63de36bce2d28fe067a1ce10e365a8c7;
 0xda77e103a18b438ac860d49030a95756dc69c0118e067bba3732b3a29d8fa9a;
 0x2e71181976c28449e32e07d66706ca4fd1b6cab8da61b18e712f5816bf7e94d4;
 0x1321a6faa0815eb83709c5f4bccf3deb91d918ee15267afc6b029d923bff2b5e;
 0x27c3ea888b30068677247481893caf50ad99ce732dd4549e2f651c3e266187fc;
 0x47172c54759f37b2b4d64ac2fb6ae6c6428edb065d5b7f185394515114dea81;
 0x19fa875a5e821b2fa6c2ffe8acfa446ddd4d6f253338376fa289b20e83de1915;
 0x2db07878d810de30ca07c22cee53280d160186e6e27c4c3a0bf895fe2c3349e0;
 0xa8c2b4b98315d9c006a0a54992474ac89e5935a1346976400de47d115ca4389;
 0x26dba58ade8cda188f49e52fce7167b8f219dbd924d7786b0f98fb799fefa2e;
 0xc098e14e0b8ea8d519e73df8da0ef38276518e4e103d8a6101993f21ade6828;
 0x26a7ab22e3d4701a4d54216b73e906da3d66859bee38d02be8f120e000a5b4f6;
 0x211a846a0b674674aa04b33558a7d8050af880d13e6762872d4560e3f7f55b73;
 0x13595dd19c159220e93fc8bf8645c5b9af252edacd343c89bae98a3a37314c7d;
 0xd839375c08776325c25610cd2e5ecf8a969154c0979ac7f14f1e58a0e7e0441;
 0x136b3190bc5d892cbe1762bceceb68b500861a7f6b590efd62be25ad1c73b2b;
 0x8765d20fa4770fa4979632a6e5b500975b173eca79b0300856e7130f6657930;
 0x3b2d35ea0ad26b1535413a38f690954f224a6f78896baa496b8e8502bf34331;
 0x290489818e00b9c0ea5d2fce994ca9256bcd9775e9ca5bfdac81972b46a4b82;
 0x24b7c1b84ec626f59c7952c4098123e690f221504c68006ae1e5815eae2e233a;
 0x2d256f845196bec5b35c52a663e4cf84dd433348157a3c877a9ad08d41da5d65;
 0xd1150f01d5d7e30b0fb3a6362c631f4664f6c7f6291e6b889544ff778131376;
 0x79717001ed6744cae07a2e491a2338a79cb8c95755392c98459c1284c70ebb5;
 0x2cd2058b448f75bc368a7cdd20f0c67f74206366bd8882235da404d702d2be65;
 0x1b7a766baff43fa8a52e26085427a1beeddd80b70edd992547818c62bd2342ef;
 0xd10757ea13e688a4d99cbfe646f4268cb2498d2f2fc8bc352694aaf44f71855;
 0x1fe27d15068f85f384f63af983d10d1ccb94147d8560d456171c3d741d427f22;
 0x2ec657144f084e48f4eeb405543606e23fe2c1b581fbf942fc3da65d8a6228ea;
 0xb71ff8252f9e1c1d3773854103c48fa3857563e8b2de93b78a54d1c929464dd;
 0x182b99aac23bebb445feb24cf5f4920497d1c735985248f317c36ee35c343115;
 0x26dba58ade8cda188f49e52fce7167b8f219dbd924d7786b0f98fb799fefa2e;
 0x1332f4f2281120300496b962963720e68a075590aa803c5c1cd8d3d582bb75eb;
 0x24c4647a7db1c869bda030a3f816ea27e8dc93909416ff20eaf39ba54576b452;
 0xf5df55c2bfac795888d3aae8751afcbc3f2c5bc2b2dec28148a252de9729426;
 0x23a4ad4858fd3c269b1df5858ee89dd659dee776a895dd5acffb17c632b66592;
 0x526ed32d567e190ff5628e6b64d762447caee284b84fa15adc9384a24ac178e;
 0x144d89dd1b606b27d51d742d02deda341a5f96e7ae5ee380263f7a23020cfd5f;
 0x8086e639a5f96c89faaf0ec803513e9c68647bc9778fc779d144991bab029b4;
 0x24a2d9babdafa3f42f87ab39e269c2edd458cc87e9e3c66dbe8b0cce81db9fb5;
 0x1fd030e5d50ca388859b18fa5617527cf0064d91bec5c81dda5ad3b611a28fde;
 0x21e5cd68cdb35c3027433f525cc2fd4f460132cbe83505823bbcb12b11ebad88;
 0x9813c803ff84a3694eedaf4b1c2172615275dc18ca654c799a70440946ccf0;
 0x202973f7fba5bd21ed58bfe7156d7b29010d41090f63f1bb290c1d5da1ad60;
 0x12305eadf64dac24a7913a62d95aefd45f48355576c671e56fde9cc7c8344ffd;
 0x25c783ad66d6a1fc6c84770bd637f6207097dffb0378d7e0395f8c0b86b505f9;
 0x222deb606f13cf28c73a67216d88b16f5958d5d292ba10ef3bc2c10f5a0b613f;
 0x1614d025472771fd870a9e9d422b3571c5494e7d679824d8fe1212177d5fa2ec;
 0x1358bdd6b7a51b1f5b5d094dbd8ee086ccdcfb9c27faad0806e8ef718d0e2b1;
 0x1c2007eba4d1629846bb69404acc84565de5d24620f75cfcd9f11feeeb3f3748;
 0x22f49d7244077e41f409c0b353afd1696e3aa15ffdb4a0bdb883ffe7a1a87217;
 0x1951523a4270c54403dfe3218fd3d4ccefa43114f1b19fb2c2821a4374718b9d].
(* poseidon_bn128_constants.rs:4557-5372 *)
Definition bn_c12 : list Z := [0x1512df0135b6692589f071140a60749cf775c642b300da2fb4ad5c6e23ad4e5f;
 0x2b109ae037ed30361cf6544b2f4ce58f356589896d6a8849482ed3f9b66e1198;
 0x2585bece06eff553d485478a19eb149e2111ae4e1ecb1d61fc10cfe1c077f34;
 0x1ff896f4c0662f4b2ad926741b481d03b813a8cc343b9c2d2bc4819c70b2f3c;
 0x1b0caf02f434fa3d4cd4fbb13d3116ac8b7386a5afd6c67076ecbc3704aa45dc;
 0xfcb7c9f13c85517a7805894ac82b57c06f2f153a6f51f60f8e508684dfe5bcd;
 0x2dc2bdf7f43812e39cef210e42e92b4968ad8bf554541182354504d32cbf9954;
 0x5add9df20c1898da46bbf74594438beb07c9a65635c90f45c0a08febad13664;
 0x21cada6641664daa997fd55ace8b88191cdc4194fbdbb6ca5895447c8a58859f;
 0x19623504589a60f058b04489b153324d16ed66667a04df572b103590b848bf04;
 0x1776442d850a436a005e02c6475b72fd2d5f84452890c444162848ee1d57dec2;
 0x6c1691fd6d2ee98396610f3c868d70874f24eff853938d87face89234a09a98;
 0x22c3aba15f3a170a1bd11761cc21794a7afb348a45d85e30bc5227881493f45b;
 0x1f77b18f06e1458877c2b18cae4e92c196c0be0f779b9e63b06c48e90b0274fa;
 0x226c3dfe7a6a67319c1dadda1b4ef04e45f6b80a78ddb0bd67e363e63b85c546;
 0x56efbe3aade68e6886ab92e98a3d28a68ca89d2fb75706f6946a0081f01f621;
 0x296406451f201c0d09587b7f4e00a7d0e1940260d48313de807fc2df0f755d7f;
 0x2000e0b6012b20f09df8eed25b095bf22e75e2a9c87e478287700b593356f84b;
 0x227f3766b6642d44c6d836a17c30cecff654b544ae8636818db8e27db124ad31;
 0x2404641b2f5dad9722542bf151d497e9199807249b886c975f26385dfb254a74;
 0x37493ac64d1deb34b9b83490f35170c4212d2c30926d4e4efee57baa652ba7f;
 0x18ea07488f02c6925f4b01d01b809c9a6325ecc7d9c790922b68ce5e7941595d;
 0x11952bfcba06442b3c1ebd959f1d4c51f982f21f994e105c2578fc4afff91c91;
 0x12be2a32f27a4e203517ab2028e65b949f896c5becfe57e24c0af04fac720544;
 0x23e8097f69bbe45f02faec5e26dc523a02153b9ef9e8bb9c5f179dfe3036c358;
 0x763fc4b7da94badbd97ba933613c3534ef21536ae7085e123c8d3e23235136e;
 0x27a4fbd1c43e0ac15eac974e0ce2e25344c46c3232ee713141938cb019b3f907;
 0x2dee4ada593d756654dec12b86bfb041ad785a56707611fc4845f4d849e7f86d;
 0xb5151d0ddf61b2291772eb93a4e3e211f52124338cc70f3d1ed95b0e9da3355;
 0x2116e26c7086e70c806605a1671397d7c073bd016d370ab3cce7c695a7eef96b;
 0x941849147ab2cd8d189c4f8b17b5a9731e55f2d143f0a76d00023a38e4efe5e;
 0x2ba07a6f84d2d2dc2f1b17e2352deabdb5d1e3b92e424cd6597c77d9fe672e91;
 0x1aafef7a2d2f0516b4ef8cee33b4e8fa3a1776fd2955a878ef5d227d215a8071;
 0x19434cc86e2f53e5db3cebfd2db52b402fa26e29c13bc13f315786d10ea01dad;
 0x75519c0bd7a6e6fe4bfbdf61addde94db8427580193e2ac8517349805b6623b;
 0x12165d475cf1c4baf662bc6cd8744f9aa4914a1d9e53477b211e853eefbde02f;
 0xbaf434f56cb6bbd08a0a58713b949b54c441ede53eeb0c4f9a6a4047bdae7c2;
 0x2e295b06bbef75a6d76dd10edba1eb93b287261bc8456ed91c2bbd0998444ead;
 0x146567927180cac0a771d5830f1431d14cd2445f5da16cf934442e7365847e4f;
 0x231d26e7d3ed945791a52013f46d02f5f4e46c17c3047acafeabe4ad02cbc44c;
 0x1a2f5ce4406246fbd42a57e6d5ae3b2219261e364cfc1f2a392948fafae1e76;
 0x661cc8a39d60be9b3c8bcd81d91fa8ebf9aebf9829c253385cf9f0e3e76b39;
 0x1f565da70f04f96f26b3b36265f977dda09b43bcc8988930dbb2079fb291fcb3;
 0x12fd46d935d45a5c8489ae0cb02c2fc0214b40d2d0f3ce442a28d764a9fb0821;
 0x2924153dcf47a15be1fa67f8ddf00ec5c816868c8e91b029f4afbd45fc52ed0f;
 0x1d4e61f8c6455809e19b563d168b4bbb87a92674346f9fd628ea5d20eba0ff4c;
 0x2c4e7acecaca8e2ea9fd849be562d4d5d955864d152ff339f2b2c7cccb4ec3eb;
 0x80300849f022b572d62fa787583b6c9b1ea7520f3cc4250abfa8b4b600ac986;
 0x193a37fbfd3671dbfe759399d018df64cde45f75b17733294e87596a304878ce;
 0x25e2563688957cf61178a5f0073ab7dd28c6bcd12ebbb9a3f0656ea0ebb87c98;
 0x1e0d91980c59a652465ce702e4e8de73f9eb4217eae2514566a39db44a09d516;
 0x1391b258dafec594799dfa817544e8a907fa794af4a411f89bf5752f36561fb9;
 0x12c30d5f593d4b0b80fc8c967c2a50c44828a4175195e47a97cbead60d026925;
 0x209ac8a2abb70eb33f20d5ee2b44ef71f2fb317a4cbf004c89e55a9e37aa9ade;
 0xbc7ad09a98b59dd1677ab30302fdf0c90e54506b5084c5c89691a364d268ea9;
 0x1a7462cd2353a35701592a1c54fd363747d3022cd8548ab8c838c8c163401a64;
 0xe251dc6fdd76bdbebebf70808d052504204fab54c4ef63159d064d68ec5f36d;
 0x2aaa85771e835599b13e6c43c0228167fcccb380aaf7c8e89b4610e586f8f9fc;
 0x2c429c35219ac033ca9ff5436fffc49c3ba01a4eb270259f6e9a3f1c3fb61414;
 0x11a5a9e38934a5912bbee49d509564c994be9d2e3eb615468b22a72fc324daa;
 0x22a724029f009c75b8a4358aa7636d13eaebd37cc79587497be8ffd58b4b6c0e;
 0x229236c15bb19327d244457a311d69f07027cd95fc152a84b6e003b841c337bf;
 0x304e4b8a0950a39ab2943c3b68eb6f16850a8cee4582fe4a8828296356811696;
 0x834178a75d083a131ead09424b3e3e969de53bb2d20f94010883f837c99f9e4;
 0x105cc405ecb40ae3f79cf5b9bd76a7f97a03f9a076f8a1a22c10f4492063049f;
 0x2a37b4b65f08c8addb53e8f024c07e47b2885a065a352a46a361549e1f8fa288;
 0x1078c0ee085dd1bd24fe71fae426d7d6b9697d94e17a7258757927a864cfc9ba;
 0x1be49bbab70ef67a5d4e1706624a22860cda286dec7c3a2c99c0b5f235ed7e2d;
 0x68ca82d18b3e7dbbc769a29559b1d87edd0822384d2d4ce9b0efe2c63316f3f;
 0x2d8989373a556639e33f298fb049824969a1a284b60053edb972a059136ad71d;
 0xd3e416c0ae12aff59d8dd5cd5dc509addd3f6390db216742c517f2df71581df;
 0x14b2a67181fbd9c813c7babc9d1f7a7f1febf9f512c12abd0df3466a29b49bbd;
 0x22cfe9304894cf79a84cbb1b6e0b577d683b024f0d5a855d0c86a1bcb432bd8d;
 0x1adfe9a64e8029331ebd2fa3def2961f5c955f5956d61b34c02d0b062bdd2a8f;
 0x2751b2da7db871ba5fdb40e0bcda7cab5b157b5555168220cf3b7969d613cf76;
 0x57f90a4c08130418250b790236f23f3209e88ffe2bdc6a240a812f3b571aba1;
 0xad74ef09771099c040c2c546719783c39ebafd5ec2a55fc8399b04ab922839e;
 0xb00c2fa7613b52e25e4a6cf633a33355badea435cbbfef67523e3b3b1b73ef3;
 0x2795381be694e0991a369e8e6ce75e7df18d38c43af1bc588cdc65ed8e877b84;
 0x9177d18cbff59ce67ee76d3d10d7df12fa0bb1dea660c3ceb006a6a3021de2b;
 0x1bc77e5718826efce52a86b8610d9480074647bf4b3b9fa3707b681c1a855a43;
 0x2f2d128b42d32102d05761240817ecbbcaa03d2fa45c5cb2f82c1a0c048cebb1;
 0x215bfd258ebc79352a7a4faabacb30840f7eb357edd21699d5b3261b5762880b;
 0xe6b332b4ae5b95d518e6aebb7a07fb4fc09235d37a4133a51be17fbe9f8274b;
 0x272936773fc1a38aa82f7d3172a2477b601e1015ac0198dc2880a21bbac65420;
 0x26bc4d42a17a0ffc93798bfbf2e2b561c15a7460e1afd9c23af7ac2a6de03427;
 0x2d093621fd40ab76ef16fdf49a7923d2d12c0228f8edb9b86959684611367ffd;
 0x275ba0e2a2a4c3b1f5d718b5b8cb8dcc4bbfba1b7064b6b38330d950cba0e84;
 0x1ed6384ca9de788c235c7fbf0c31a59b861a52bff2847af2ab22592487879daa;
 0x2c337c808bfe0d2cab544bd9af01f08f916d94b7ce0729a08cc4efb9eeef98ec;
 0x2d3e0934a4371484c958df1e97e7f0f3984b5667539fd10c3e8e71246adad09a;
 0x54e425aa02adacfeb729cae9df1907e4161302289467c9327ed08e35755cc13;
 0x24957fa9d48f942073ef90a54cb0632c89a433ecb236d18f57dac5aff85ef96;
 0x194b561a91334bd0dd4eaecfb94f03ebab927fe5787f1723c2535944b2fe6971;
 0x1f5f3bb77a487905e3d39b2656b91e0a8223226a3cc0c7a473cfc4a52c74ac03;
 0x1b3a3afed7a0821a684fc0d0f9ad9dfa3b557c6542bf7bbc5cf01bd3369cba06;
 0x2b96619ddc3b2a292fceb07e2aa80c86ad636ea7d6d4babe8d2947e069390736;
 0xba31e2d1e807374a710cdbf81f05af4faadce88ead0a1658b0b481406613177;
 0x25d7d5bdcb74b92b74a604d6fab3b2f3a228ad23360e4def3919146e8c44fa52;
 0x1ca9f911f0b08d1a6205925cde7aa5fd38b061095621152e8abd01654380fadb;
 0x1a90d4e090aaabf652053435e3cdea5dea64527e5c841ea9358825e2191b48b7;
 0xcaaf3b76909b0b1e1c7f4ec493f27501f5e6f08369e8a36eac406f29c7854e4;
 0x1c8f94286e329069d1e80b45787cb308ce214b04999b3b99531d103fd2577cd9;
 0x1acd43271d4b04976db5ec42700e83fb151359f9f260a5b9770873e3cb98a900;
 0x46cbdd4dfe88c67791bb0c5ac749b5cdf44a3a87e85fc7bbc19b7839647a704;
 0x2b4b03cfb4487c1a19d7c05ca15133be29c9d3f3051e4b01fa4dc573eeebc2af;
 0x1a9a01f0040a3bea6124946a77e67fd3aa4fc6ff21ff5fb49c852ac59b65e5c7;
 0x9eb5e077a7d0110673a617e59369830acdfee50de5823ae0688e60714292b6f;
 0xd006ce7c187ec6472562d212dfc29f615c5d119057ce0c721620af6e4666fa4;
 0x54bc8d659b31001a2a529f45640a998dcaaf2ecf1ff8fd3f206fe34fa84722e;
 0x1ca1ff244c5106ea88045116081c201c6323698c6b68738166af8e7f3f8dd9bb;
 0x4f254de8093f3fb3330dd7423d9d9e17357ccb34a3c18e94019627610cab1db;
 0x18fa6af934100cda0123fee0b5636b693692d91cc832f87c76c04bb20950153d;
 0xbc175cd6a0ad546d33298d27d2ce18ffc6995f153f6bf05c59c09a4eeeab142;
 0x2e2b792abb6b6310e2cd5b188fdccf53028d6ca70604e36568b15f3408eea618;
 0x1216fc0f6e7ac8f0ea59bf7840fc720b37848e6dcb0c77f253e2cd6833aa3af6;
 0x15381275074173542cd250ba7cda6d1be6c12c44af2a00a11fcf0787421d8a02;
 0x25aa562c4dfb0a38dd92e020b4d6f9b2769341f381de9c27af0eda1453183bcf;
 0x19ac9e3549ff20909488ab728a6e88d10a0f634f771742a517e00bc2cc7cbe3c;
 0x13c02339462d082f13ecc8ded6b2bcb26a8005a9ab55ef69a91f847e760bf302;
 0x1fef0dcd8f5858f240c8986003e577a276a3526c6b45f75403e814a0bc620a1d;
 0x31d9be212424a643c6c9bf144d81a06e6fc9d68637a093889cf3c7fee5e3ea6;
 0x1a6cca07ef30d34314047214f1a8729728b8dfe8c0e55bea3564928b07de42f1;
 0x2d3b9eda96cf186f8e0b5e1446543281931b260a3ff043c66cf232f4909c12a6;
 0x7da58325965bec24b4d12d606fb4563a23a130e98eee7f7766a4a3558b5d6af;
 0x2655571c23f7f1cd1be67bb24d4c4e7cc674b884b9c58ea8165d2934930d6ffc;
 0x2e5ba95e4a2ce5c433f15ab0a026b1abc2b2cba256c61706b6997feb577a42d2;
 0x3000c7959df31ee4bfd1118c7ae22906da8d802d9c47855050117926342bca87;
 0x10e13d0881d27b08cf5b64ceef72c428ef1084679b539b058c81a17006abe053;
 0x2be2a93b372be664eebf809dd873c74122acb3cf5abaa6c215871601b888f489;
 0x21310218217a726cc850c0a7dc919d29ffa8b61ff606390b2eb0eca95d4465ac;
 0x14d907f470707542205bfd78df274bdf24d8978959b44dbe9df7a7e52114a7e5;
 0x5acfa1e857d8001ce311fd3b5d9eb3a1c92fc6e5dac2466c0af0b277816a3de;
 0x123ffe61d17cbd6623ed486af0eb8e76d04de3a77a483c662b0b5cb98cd449da;
 0x26368aa29474645edda1e155a5cf0df1eec95f4e895650810aa77f4ba7027af7;
 0x21050e2060dceeb56367512af3fa11f3d2e6be9b72731255b05be5fee793f880;
 0x22ee0d90c7d715326a0383c7abf6824b9d936af296756129574bc79af2fef0a4;
 0xe457467bae8c132f687fc06235fa92a0bb2c3fde1ebbbee6ef83729f25f3c2c;
 0x1dfb9cb0002a56e38b73913636fa56e26a3b4de751939d5eb09a3432a3e29638;
 0x6c5f60480c00ca60c016f34a8ae166b6934319b81ab4b27beb44a133839dc16;
 0x1284904157c07148e61e56297ff04fdad394a6990d4e47a614a00999e4b8e78;
 0x13d10300ac391c78f9c215dbc5d2d461b62cfa5a3ac70a69bd470be5d82cf32d;
 0x63d65844b8805daa8fd771b07c278404c728b665eb17202297266c422a96188;
 0x15e3bf17c52830ed3255cd5c1149f3618641d6e7fedf468c305d08220dbc8a38;
 0x12bf5dd5c3caad12e0875e57e19b10752d9651e3a5dda05c0f66e5bf8faa3df0;
 0x243c3b797e831a55046ae8916158fe53648e21e939400f9f5eb67d6c0cc094c7;
 0x1e28fa9b34c2c6155b8421edd4de58c99d1e5e81e92345f62319ab96df03e5;
 0x2ad1dba5506ee064064963527bdecd823cce0494a86ea452d9b4033623f386bc;
 0x23137879a024cbc1b4810ee54c7f9b85046734145f334a7cc1e4a57c740c8d82;
 0x74f6fa62972968e22189384563d6752e30235da2275481bc6c3b056937c773c;
 0x22b10a5253716d165a670736ee243de0627619378edbf751b46bda0b12dcccf5;
 0xc190040f1e4eaa11b4fc7046995989680849177ece7bfef7b446513f9ebe112;
 0x301875852c9ad256211b7f9f31ced8e2256188d32c3072c519d7069b0d10db76;
 0x1c0f67d05ebfd650d22dead7a11130322bc1272efae98b85c815db6b318dda42;
 0x286e9a17364f36946a3d2c7ba0612fef3fac60b0daeb6e973aabebce587a78f9;
 0x2b729468126eaa101f4233baaa099d02db14fe35c48580eb3165c61ddbceb52f;
 0x1f30f71406a5da98e929062cb48e0a34e473e832fc0ce811c28f09a31d5416fa;
 0x259546f8419fa15978ab360084fe0a13229fc11dc698db8bb81c822e2c832173;
 0x6e36124121afaca19887a7ca428e12c0ec8faaaf5d733ecc6960bd7aa5d7deb;
 0x10f1ce0bf57c0778bf4de60a1e2bac8892de6b7b6ef2f8de911f731494260be2;
 0x177fc951f639fcc274b4ee28f3f7ff560d6ca0d9f930f53d3abb55e6d75ad103;
 0x1f34032aa46cc08d68555bbc2469a66a2efba23c56ec3dddc5836e2e919cd610;
 0x269cd0b774f8625f5de7519be61857cc9ebe06d10610dc91d9f4cc57111eab41;
 0x74f437828140fcfb1ae00b38c29a5080f0d0feeb99d4688ff8871f6349f3c66;
 0x396f2fce8cd5ab3d2601d37f80fd9775aa5e9f56b406f015d9b095fe1905945;
 0x2e03afbff73fb05f32f50239907f48aae1aba810a6312480cce343ec663f210f;
 0x2ae899455a6a7c49997c82bbe36066ef1d6c22d8426af54d2c74970b33ad2a90;
 0x2bfedee3eaf7340a10fc0971ef0003dc87cb997cd687ef9f7f88b30c3def2690;
 0x2b50b39a43cf9f1d9feaf04a1f100311e78932a68051e792c23a99ff95139a00;
 0x24d16eb1fc9ee39362dc66338ea0d275147f8a7ab4b62ceb26dc3e2b16c3bbbe;
 0x1539d4f6178da10200463590c6efb1ca7305bbba935e5a7dec940e236dba2f71;
 0x9e85ddcb02bfe0709021dc9b9f4efba2ca7a04075a78c1bfd29dddbc7be7528;
 0x1fe7f77ba2c018282073ab4d222959351f7cc16cac7e1c6794611eed06a3813;
 0x1d3220cf7ceba197899e792fd2b5165807a83782df55438cc8fcee6ae75659f9;
 0x1364bb46fe7c79bc9156a13a8c86b77d3425391f7ed124a035b94133404517d8;
 0xb70eea0fa95971c52b4c91fd9cf6ffb5de97e63e364028f0c0b1904b075b06e;
 0x2a9ab96b4de33f8ccfdccd8e86510e8cc731fe673eb289d15a374eb0d055d217;
 0x2ec7ab4d439e22d1d97eff2501e94577691d28698440e7b41190a8b8e0c98525;
 0x1c1b59ff9212224422968e7616ceae71573b05c99e4bcb26213126fe4dbb5de4;
 0x1fdfaa4da540e50d2bcd1a2a0975350f969e3492584085f7dd3fff9d8814cd49;
 0xcc8ef6a3dc250d7a4c94bb890be797b91f08869a99391caf70e2effdf7f0866;
 0x9e595faec8506700a42a5a41190cb6b9f79fae9b601cc6567569e8ee9e24813;
 0x6047cdc0ff8bd94c6ab60e3ffea21912f0101a60bf6c2e96371be54e63d7346;
 0x2e40288a4a681e1ff5318fbfb796e8b7f0b2facfa5c9e691a1c4924fffba4950;
 0x12616992bf6faf5144c8ce58355ec2b6e20a7d25c7dfb13460b0722681596807;
 0xa78425d56372af995d8930d48cd645a6e6b45485b4c06fc38e052818b5b3caf;
 0xfe9c60a64dce8b45b53462ca6e68be325d8174d067471295a983cebb1c9a0fa;
 0x2e7aa9cee7624f71fa4902971d07cd303319bf41007bdc4ea0fea40ef97cba1d;
 0x104690cf04a0666f4921a4ef9f808fb9a3bee6192df0e6cdb15b6f302f476c8d;
 0x2e63c4212a402284deddf9ef260bcfe7a395002e22c9a6155930533b29959471;
 0x23de0c9527d4ede516b956c9200315866378510615815351bc58d3b5d6ad7826;
 0x25439ed1737440d79e4be009403949ec9d32a0ba6ccd7fc5158ec97c9d32c447;
 0x14e35080e8da90b17e72b6fbfffe126b09ddf0c0cbd0b226df54958e680afe90;
 0x2e0e87ca0a2090d9ae1824cec8a389e001b3c0aff73e81bd25847ff0a45d1fa6;
 0x1319e0f608a12fa01b7740a8e14066b880f0b650831d8f424b6af3fb361c6deb;
 0x262b82f1d1d07bb18b9920597c3925a41c0a61436b71d24ee7723c7fb8875af9;
 0x27773d7ae7ed008296a572adb64f4fb5c229735b259c03d4c439ec2ae468b77f;
 0x5a65188ac6d6467e028dbe4b941bac5a81240e80837a519152d6542a5f4074c;
 0xa2a8b07719ecfb2c94e90f8e045b18ec455f67325324c45119c0329195efce;
 0x12cc316a669ced0290bec967576e8e2a9e9b6081bb09bfda6456dcd3fd8025a2;
 0x25a05ba9a3f7dcc29a43df45efc404bed408749b7d2165038d702b303ebf1037;
 0x6bd45d9b13af28e309348d1c06cf153b061e0db126ec59a8af095a310c284d8;
 0x2f55fdda2dc8faf2cf83086758c7bc77a1a382934e7168c30a1e9daad2b96fbb;
 0x1a468a18b185dc342ac6b8ebe53ef265c69191759e553eebbe674ee9763b1900;
 0x31b0f9b6ffcb451f2617ee915cd6dafe17ac99689417b1d92698607ee005142;
 0x28f95d6eb7547e7abe25d2484193bbfaa36c6576b19c36fbe06b4455ecd20f37;
 0x4f70c340b166e834080afc44ae444ea1ef56aa8d084b2301e62f08e0777420b;
 0xfd721d14305b2fd9b20975775f54e6c4e8069e2c71fd663a9c9cd0d13086165;
 0xe79eb513eabd8ca3fc610965050510879c0d2c755b7e59da7726d0d54943783;
 0x2e3636a0f8c3014fd963ff1cfefcc844a1763bfb2de23352ea55aa5dd7bb8f5d;
 0xedeaf35f44f339dafb57e3080c99c74c107f61e3e0de9b8b4c234a321a75589;
 0x20e4391350654d0463b6ea16cc68d2c411bf8c97daf1dafc4ae6106ebb347643;
 0x1aa0b9abab5c77259b24ba6df035bf864c7e6d573480ab4b2d85926e95b0b9d6;
 0x2b582ae7e00f3c6dd5163f3e44f8ae1f8eaa9324e6347ae9fca7c2a3af2b95af;
 0x1107e912d26d0c4253496352f14b263a30a09b20adb31dbd4fcbfac0e4ca93b5;
 0x131dec28abb0eba0e9821ffce7980bcca06046c12f01413ad00a19b8457f804c;
 0x300ed80f4915fcb5dc8d420adacdc6b5417c8ce35d907d95376756d23236bb66;
 0x188e211e215ded9c861d3a21f43f1578977938a5335be74325e0669e7edb551d;
 0x17d321855d1ca0303dc7b0b2807c43de1880bb66fd6b3abfe5cc2c3a8e6a227c;
 0x1528e096fbd27e0e0900460be22a69b7f82ca1aa08a6def3f35256914b050210;
 0x271672fbb529a7df27dd20e888bf331f5ddef5c07ff4e720604754739fd56381;
 0x2d7d508df128fa96da79116c1491d6d4d4d87a8aedf97b24de2f32e86855f5d1;
 0x2c12ae06490344d658455338a0ba557e2a1dadbd8c9915ac402f2378994b3ee;
 0x1ef7f571d7daac5ada2f5b94de137402be8a81f9c9fdef9428ff3f46bed81b70;
 0x186213e6d9a5ecc85192d790388eafed5535dc3634d8359e730685a1d7eb8666;
 0x370eb6d2e98282ce7eabd8dfadbc46b74beea0f05abaaf67af1698ab3d025e5;
 0x104ffffbff2258b1d4a2c661d2d0cbf7896e05398ef373088bc86327b37bc103;
 0x206d39d5af5e1e50b477e46c62534200bc043ca985cee17f0bfd3e68bc897ae4;
 0x1aaa20931d5de5931734e80546c966b8baf8ad6c279558de1696b2e8b2907df;
 0x1f4aa1784a2403f3c0b312e20fffc29f77e4d01e712d43a35b9f542d649488f9;
 0x2701a0b09e785acd9711e5e6ff6232bc6497ea97a6ceb82d3947508bbb5202e6;
 0x7e99ad5f3317c1ace19b4a7cb94b50900319f645b2b956a34056355d3b30047;
 0x2250455670deae50875f75ae9779a6008c9fcfe530b417de4d423aa02ca98f59;
 0x260d62893e254abd10f0e4f8be37b5221d15292ff00a8684f5e28b5f2495979e;
 0x15abbcd2e0c442449275eca5e4911d157cb6dc045a595417834bf39c558f9f26;
 0x9751f79321823f4bfb93804919c64e5cac1907d031085ff8daa9efda95e419a;
 0x8b3d82cfbec8cc13f75f77c3a61848aa0cbc0dce4cef8d72ce3a59407b2e25a;
 0x1976bc0dbbd83a1a26f9e14aa431e24a728af4e8f5cdfd7d29943dfc29a7b2c5;
 0x4f59d201dbb263dd04d2c2fa396b12ba08a48989dc2464b3bd5976534eb38e9;
 0x2bb23243e841c564e7add2d7b528d9af03fe75880e9ab76eb4d46a020ca6e30d;
 0x2f66b96144ef6c5cae5bfd2511dd2456a1d6e3548569abec7d7a49e1e0474983;
 0x29b569f2f67f1c0363f604936cd59c3299453d8233e796a25075c41fa7e19d43;
 0x1aab6103104bd50f3a65eb42bbf901792e79eb39d44756caef259268a06d274e;
 0x100955f3e56bd17a4eaff6f79b697742d0655371859bc704dcea5ecfc885ea23;
 0x271b363c4f44f4faafa02db2752dcc192f4edf5c39c17ad5a7b8f479052711ea;
 0x1021eaa8fa200bb0d3d7ef502c5d7eedf2a6ca36e63a37b5cedd98a318a7fb76;
 0x13c6a203321170c046d7d44e25f21c4708f58404df6c2b578462f4ac181c5e1a;
 0x66691a02754dbd02ada281da41893feebe687083f4ec299600c84657ef2bc9f;
 0x16379af37c274e663b7e3c04ad065ee30999c30a05fbddf1a43037a8dbd4f199;
 0x2e01cf9813252a5171624a4963d572e1b6e65a2b93a9c990f6a53ba7d5775696;
 0x5a4ec77a21ca15f804aed87b98dc3d5fc92aed79c3724b3e9cfcf5c8d35bf77;
 0x32f3bab069abd4a66aa9845e84a3ea1d390a3c2b094197a5591c6b0c29b4b2;
 0x56416328cf6d47d3d291cd7259481443215b7d2904c7c5631bb4b72e83de7d9;
 0x16c0689d4828c935eafdaafac08e4d909da7bc8776c76c5dcc6b4bd49c7217fd;
 0x1d8d23ed1dd6a53d2c18f91537564eb706ec1139ba2240b733ad3acb847f7992;
 0x1aa1a21e3784b97843ec620ca8961e8c62d5e12b8e3effbab2a4eed9b8a58de4;
 0xbb54439d4c6f812a70581ab7c1da56d98a08916048d6b48f9540b451b7e66dc;
 0x24421b73eeaf63134b46c29646c2b24dd7acb860a188b08a6ed1d00cb90b3c3e;
 0x3045c2012f7445890f79f1567060c3c935965acd0ea551a671f1b625e684d7d4;
 0x8ec863991a053feedaa5281098afc031b75551065d6d01f6deb04c63102c9bd;
 0x250cb2ab9d5579a24a57faaa87f7c828c94952cfb248cc46d92ee60b8c4c95af;
 0xf25b63b5eebc3198122c606b0a5b2de15e6f5fd2cd0f493f96265369642f93d;
 0x2ef6abc5ab02c8431de8f7a64ba3699c79e1df0c8f2d9d5e8d65b792dbc36d0d;
 0x1e84897766aa9de056bb5d97c6797bde93c3b0592512340206635332b5c22b11;
 0x8923f05b050e6e0fec0efef4dea500ff3aec3054d4b2b0a1fbaeb356384d70e;
 0x11687ac05e24f50db06335e1875db73d8f379db3a5c1c3b9f57b725b1fd8437a;
 0x2755837b80549adaba47e0980907591229f5a6971ee0f33ac930f5be13b154a6;
 0x9f80c8230bc5a78138f9952ba6b64ce623e12da019460363a49f5e5efc076c5;
 0x104009746d61c0bb6643e64ddfeaa2d4f30872a92416552a1dfb4b75d4092d4b;
 0x196e821f653863b14b72b19a068aac434a6013598bf73b28eeb36c41e76fc54a;
 0x2c8a8a85e2618452a8d0a9ea592bc495a50672522536ec7663869f758ac720c7;
 0x7bd4de2aec5a7acfa66678754ef95eea840dc97fd1679e653d5fa32b8ad6195;
 0x2464a17f4353a76d911cc8349f5dd02cbf2b2c58a1b7dea25f000eb9adca396f;
 0x26831294e338f44440adcf5dd1ca4d1412a5cc41c93a2037985eecf4c2fbe4a5;
 0x16d69ee3ae6b20ddd62dd1a13d279d4d7da74b207bc57a15ac9ac92cae2ecfab;
 0x16b55a792f1b19dcce6b9f4c9b61be0e0457a9980e6050da2500a409415f207b;
 0xd49e31e27e1c71c16d524b2a8adb0a64843aea5da2fa4e686f183be95d4170a;
 0x1affb8fd8b243d62d5d4a7b07b624f9a0452793d1d1a11ead3bb8284eb65f97a;
 0x27da7ba10cb86c06758c55e7e8ac76dc9aba2e863c2deb8fae7525e42c96cebb;
 0x27e1be0db1fdd736d218443f56d06987443704d18c42a96f3fdcb7c4536fba09;
 0x2fb1dd1f7461d75fa3c1e25df670c1442b001b9275e670d73c81eb61fe028322;
 0xf5f0cc9a3d4d3066c99194feb229f0e31831dcf080bff42ff1d14974f82ffe6;
 0x2bcd23585401b0f7fe33fe366ce92e3acd8818a23550f3753decb1ec24405ffe;
 0x5c552a02e2a39af0e21c8944b9c4f56e15b438cf346516ba2147356904f01d;
 0x362a8a2865a2b2fe902831c8044c54b0ca94b95fcb79b65f14753c58222b4ac;
 0x29bb183a6a291b93f0989746105e33cc669907250fd7064868fd313810faa29;
 0x608f62214871578ed58a12dcc4d1c152af970e6e5045f7913cf4c40ca6df18c;
 0x1f8a4cf532f5e835704ed7ca83effb517579006ca22ecd7422511c0391b5c4ee;
 0x213882bb31291dbc346cae58fbfdcf03978152e15b344892a94c44e2f0b1b338;
 0x297125f6728b65f189fab61c3896016beb0a972dd34764910f059508d7e8622c;
 0xf76029cc3ff0861e048a601eb52a11cf1bfc69f2dd6ee1516a46e4865b7c7ae;
 0x5a506ed7382db51851c224d5213c7ce6a22b19c7ff7a7fccc6237af1142bb17;
 0x157ddb6fb6d427b97ba69e8798f3950d6888e44c60dfec0a98b7262a977744a1;
 0x277aa399e55c3e5cb49c4bd8789f6551351da540cae037eba37543b045e91eaf;
 0x1499091ae8dc567f8d050a0835eaecf4b995b5341d29c548da08391e6f1453a5;
 0x200bdae3ef70a75a12979041cde33a178ec02b110abd379c2d26cbea9167b6f8;
 0x2e6835de44957130dd724a0ac6335b7c35e8afad6acbba6aab16f455939dc77a;
 0x9e302222c01cdb2c45e5c3a920edd82da3cba855e15ff634893209bbfe55d3a;
 0xa5b412cccce0a371617dada267bc783ca19cec068f155d6954d279f3959cd99;
 0x2ffb034bf2ba629ead6f8a6022e2339779e68ef2c8bf39efda1a0332e63debc4;
 0x1f3ab3fbf5fd24859380ab59a8f72cc52dc1ab2479a10f33d7c5b7121c58176b;
 0x8303d8ea6c4af050a906aebae492e32010ece609b5b2c6eb137ef5dc2769b28;
 0x19f0945d9f71950f6c2b298ad3c646e4fb9e99939dc170c735f407148c792532;
 0x1a621a5b24758bb036344639e427c03f33d25af7f7711c3ed99995d983c4c3a4;
 0x218a7b745f35f497b4428e61c3b79563752ea6f8c876361d327329579339928b;
 0x16ecebebe58dff59a7b0ba40693aa431b899ca7769b445a7387db118088963fb;
 0x1daee46cfcbbd63435fa6f8791b36a4fc659f5236e896a4d447ab3da68280fac;
 0x260875ca1e98e895c635db3bed500d393940b5654d369c61156db2927de5ed18;
 0x1cbf71e0ebebc2d151966acc2be11116788815614bec66f68735914c3b8ade35;
 0x3b2a320eaddf48ea570e643f89ef2272bbebdb1caef32aadadb22a918a8a99f;
 0x72f534bf07ba555426152c37e210cc1d36d8b7cc42e1dd64a83081357189f6f;
 0x17fe62a93a9efb1236012e2ca1064b1b93d867b0daa30dd334ee5ca08d304b07;
 0x2ed3b5db7ad2fc083734fb61471629463d4696ddd8c8dcdb1d2fdd460ab4cd1d;
 0x26e83b9a8a7c7bd6929f22021fea78088037c25c7209425ba83e998115335c19;
 0x1758fde5e2d8b8886ae2134943407d8beceba4be517a01e51a51a9c11c1510ab;
 0x233e22ff85bffcb57cf35077fc6c81963590f67e3484a67d846bc1cff2cbe1d5;
 0x2bdd734a2d8a75f5e1cda7114a8c418bf5064398045dc7a9a8f31669282ce92e;
 0x21c2e28d54733906bd138386d7f05b1cc42f6604df893509a629c351f57b95d9;
 0x3ec3db419b789b9a13811dfa2c51840d3a01961e5f884148ab3f6afbecca3f9;
 0x4452cebb0cd94f7163266aab365b3666d2a329d634ec53db009dfbe331062fa;
 0x2374e7cd3492dde40a21a4111b32313df5a4d1d483ff38c4b0cd49214b12ee2a;
 0x18aace16399c7fd6e9d2197c5d7879598d2b72bd508e05d6f8bceb7f3fc668a3;
 0x41d469f85bfadec96c07f7756a6735f417bd7a882e46ba06ba075731f56b563;
 0x10b3c1cea302fb6b1aeefe7a701890cee0358bb45dfcd6db64f90df964cb92e5;
 0x86dff039d2271895d0a8cdf944d75ba54284897d14b2eaa009400a8d77a4beb;
 0x72e72d8677f6a51f4c2386e2e830d6648c4533a72851fdba34a5083f00802ef;
 0x13dedd574590f362b835c05151d6d7c1a721062c50f14453fbfce12812dec477;
 0xf7b730b9f5abc35b874b224ebf120d469bcb883d4b4e757e8eb52bc26958084;
 0x23f2dfd0242e0dd9ddf76b575563e69868e13c2cf3982c52777e6c5339472083;
 0x264032c844dabcb025545315588b4509e27717b8e964f60404d2a98e8c4408ed;
 0x2a505c683ed009b84ea09e705b1c9256187a48ee96064d3f094d15a931c09d65;
 0x12195fb5314e5dca6dbb5301a0bab3741522aacd9262c5503deca09ed3b5bfa5;
 0x2b96748cbb6147ef4860f0d7d93c21e42a84da2a5d24c07f2e6990175e362138;
 0x168dc4dfaf6fecd4884881fd5f0feb2799adb041c6e16707f9f8701ca3535bde;
 0x293fdf5e9741851b6efdd21641894eabaae4e7bd4b4b91d727a80ce850585439;
 0x108d4122ffa4a9bed486d89bf9ce7188e53e0161b2337bc5bfbd81c668144e60;
 0x1d34ef90f1f5eb9be9a718c2f5893fe4dd422203a306f961707b4a179e8a8096;
 0x2d6db62f91949f12dd7df0846c7d73de9d13f571edd32a1a3b1e57efc7967049;
 0x18ba73783f66e8f96616221f4959a5a6df06ceb5bd3d362fac4b106111ee2d52;
 0xa17603d2299bbf990ee1a95b5acc089aed11646ffe696ee065bc2ea650cf6e9;
 0xfc9ee6b510c00bf2cfaa5e6122b6e68ca866fce11dfadf427fb770d8c25d2fc;
 0x28222e08995c93e38c8389bd32f39dbcc203d0efc4011447c543d051656122cc;
 0x7d27a8bba7349dd716d1cf2a9595740dd41313b93989de7e5e9faab97ce9b46;
 0x14498b47c4b8f2663e422f7171b4a3c073d3aa17895b331bccd09f1892788a8c;
 0xbd8e776f3ba7553933619f60711184e85c1c6b596b72abbcbd0d1ef0f067fcd;
 0x20fadf38540e1e46da22ae56b75324b4983031b9c8f5198d32c50d5f25b03a01;
 0x269997eeaebbe58b6ea9f9e7fd79d185bac71585073928a74ea6f594dd2ea05c;
 0x287d91c8eb0d2d0882fc5764dab5404c8a8fff1685e7ddf656debc7b3b6190d5;
 0x878d3344a7d147ffb4c047b7d6dfa85a864deaa4c16a6753c1e72454c2c630a;
 0x2e3c4acca0611112c29b18e0f9b59357f7c5dcab7a8d5f9abe92d7b2b2aa67ea;
 0x1e288d37cca3d0ba558ade49cc5220ef629ef5436799594edcad6055c5bc6943;
 0x1a1d7f65598460c079f75ba724389d5118d1420f958be0348fed76ec4f705786;
 0xf1a6c587f154cb9e0922c5c4d8d277e66679ac37eab5b27ddff668615ccad88;
 0x2d782792e3cfa8411cf6233e5be30dec0df22d36c9d207da85ddbca5ec747197;
 0x1bf4dc59b31c01ca9dd2d9a70520ac09d1b863b4e76471da01544f06d78a9be0;
 0x29abe14d44a7721ffeb528360662842162b170818106e544ef147291047c3fc5;
 0x2f4b020edf60204c8dc75abcfb07605173cbc68c4d935d0f7e654f104696fa8;
 0x1c692a1214bb6ae2c5b3482b96ec4678c2f7956a82819e3a9c853df4606b9a9e;
 0x25cb9034345fd345c79824069a5b9a05b77b94fbdc24eb5782d55622db5afd20;
 0x15ba65b32365befa2f7cb0c5210eb901aa409689c9c74bfdd2538d78025a632c;
 0x301a02d45faba3c161f8250a2e7e280d56090f4cec023448ae1199fcbc58aa88;
 0x2e95c6f2a67a136f5124345e3a43ef22edcfa806abd731c91a4c3003fa20f355;
 0xa1dc1da90f177ad3abccb3513e1bb7440d8e695f2cf080fbb83e61ed285e871;
 0x26feb10533a8b990dcce9ec02e87b7cd30753750d1156a52207b82ce63a92c51;
 0x190eaf914232f96cdd1de4bbde137a2b8aa7ba817d6d4b1dce5dd3f03a841d4b;
 0x1d441c3fc47fe77a1883e06966c8980e5846878e97071ee0e99e560efff58b23;
 0x27028a819695508e70882dd56a022e912e386db46dbe0d8064e11c8ae74a2122;
 0xa26bbfd50a68ff9f1622e344e20bf890c2a198b6a58bd822c722f7e42ee2c53;
 0x2551e3511c114035df498e07d8354c042df31b0bd3ee502c8c20ab8bca826fd7;
 0x17c6203deb0a803272043d5ba927b5984c078c00a29002e6553a625efcf0b0ac;
 0xdea4d4c52bdec214ee4e0b88bcef03e062ee2dddab6d050b1450c0b95a51c7e;
 0x5e660b1552d34ff3f62dbc5b1ab67e8e1156df506c39c0ab1d6dab1f6f9a62c;
 0xb9870c2d17bcb2bb8b2259ecb2e54ee162362cf9b18243c886421a90a646c30;
 0xd83ef93bf551550434dc0763cfeb5c0ab614d47cb0cb3c79180ce551849993a;
 0x2bd44845898d89a005f5c1bbbf5f5b8e985d48e916285a64e676a811d5733ba0;
 0x255721e12fbc82235e64a106731c12910920c71bfeb39be6bc82291d322e7f34;
 0x11b41910ed33ae016c7d059a373657f56ab1ed3afa884f6aeaac3e8657b52d6f;
 0x1634afe1bbae1766b7ff7b11b011ef9f88ff0dfd8834fcb085968a35870c96cd;
 0x17e992284359e923536eed41bd61e308285399a12b6c1df22f6570bd00e5a237;
 0x19808c7e543688ca243719dfc2da130147127b0d441d88dff53443d3d7db9d90;
 0x2aa19c14548a4fcee170c0196d363e8865064bfc982225d5946c7ebff7945979;
 0x2e6a2b023ac766e7485bd83cbaba016a130c00a731134bf66692cd5d7460616d;
 0x4e13213097cb24a2a8b3819019a0b676bcbc81d2ff49af4da8c7cb0ce8d5125;
 0x436db88b4f66de384baea73c505b871c79c2352600f5859b30e218f07326ad8;
 0xc97e95688ee07ffa790567816e31d6ab7bb0e6e8f9d3e9cd09a9b1b16a9094;
 0x2f04c8c72c8a00180ae6d0c29f2dfabd83d0d660ebeb5e7af3c6024d3e577747;
 0x15070cdd99b9b5cdc0694685bdb06489c56f2c99961e1ae996608516cfd08791;
 0x134e38e18c1f42b857ba214be75ce4b5d33155ba10f9834e95f3a96e25e2f70e;
 0x1711629053d5021bafa111ac20ac85161cdec854fc170a064be745471ab5deee;
 0xd072e1c8ff17213b27848557a426701aad8bf3501c6a55ef01dd4b21acf017e;
 0xd6cba818cc9b0f4e2323a073869c4d4b4e5dd95fd04610ffe27a99687fa98a0;
 0x1bb7ec720107065b5d75fc4539b3b91af0d95eec0b51ce06f6ae3b40f10a54de;
 0xf4b198af2aae4c1f15035affbdd30647ad04861de3e653a767efa5036bc59a5;
 0x26bd5d4e6a15ed6e2ad4caf87762a8e2533158c689ed2e6b14f537f7f8af4891;
 0x1db762c3e18bc6c00dae8124eb13921357a9cdb2a7d8d5af899ce5c8a304ef4b;
 0x2421f2e7882947e068b590493df453dd22a3ac41f9a81e048fd5c80119ff62d8;
 0xbd9d71697d6c92e376850493ba687283e8483b529a57bd6b8f3240947310cdc;
 0x264e510e5a7eb58fe37c891194e7228737e2c0ac2fd9e7ec416e84bb44835025;
 0x1a28efe15e5ba6bc2ee602ea858829d54b1ab7154cf94bb948171ff092f084a5;
 0x14a206642fa9a6cbe78d6994d4472aec2d66e9bdcfeca4cfc133855662a0ae15;
 0x29195f6f5eb29605ebb51348adb72b86e184d5af2a55979e85d8c37d5fa377c3;
 0x2becbd1aa2fc1d6a0cb87a7432ba18070d4d8d87c7c5085cc57a36872cdcf496;
 0x2eb311c7d96af1bbbeedc811dcd0cf3b0f3a0b932daab80580ef19f2eca4dc7e;
 0x6b13b0ec69efec0dda80dde05a22982e450da4b719eadc02e8e6f0ae8a9c8be;
 0x2951569586c452e57a16deffed6643b907327ab830fa43c7616c6bbd7b337fa5;
 0xf80913d6a98d68e7d203149083421598790bd17fb71aba3be68235da31fae9a;
 0xf6c6ebc152c7142355f365056108ca2752a939343f52d4cfaa1ad0f9ea80627;
 0x2651a3545d55a179b95c1d5ec9f4790094ccefe991b43482d3accc1a5e6bc41b;
 0x19ffed697be990bd22c33a3152f1b61d924a88f25a682a604814ab0f83fdda64;
 0x514f51112b2131ff7446bdc8e6035f8a15633041e31caccdae57a2cf2e6e30f;
 0x27b250eedea12787b0e74c67fd29ee3d6f3103204b0ec153bde1b310ad8ab960;
 0x34e3b092aeeecf9fcbe012250071b7d86f50ddfc68b5bf59e57c5f93c71e1c9;
 0x1453aabd4ab309ce11df060b36906f221e34ec457f3e1186e1ea3369be4b923a;
 0x11680b19c0f622c3aece37013d9d9c6b094dcb5e74c08e22f170fda744ee17c6;
 0x25121ba4a0ade9a8b4ddabdc337b09645ee6c42c3fbb6c30ba0fb457bca33d99;
 0x3010c1d25cce64f6dd36355891cfa681dc6e2eed6daeb368f6678ccb41b08350;
 0x1d50c97e2fc85017040cc192d199ce96cacfa54189b6d66af5d759fcb6bda79e;
 0x15cdcbb1c5317192281df60267008a9ce8db866fef3ecdcccc3cfad29e7ab2aa;
 0xbae86292d004b61dea91dab5addecd8452e4dc0f664cc600d2cb6963b7df87c;
 0x966e0ae7b6e52fd18185266c449aca139d76048361592d38632a20c8d0246f7;
 0x1cae92fe86f9a7ef83ba0419a261dc83aa12a12656250bf6cdb92909a8510867;
 0xa2cb83a054988cee1a7a847c228c8006686ea62a6f13dd9535dba248fcbd47;
 0x1417d0b749fda05bc8a36f41f3f714025f2e4acf02f6f6160714bb4d86d8a7c4;
 0x52c5a70723442134e3532806e57d283a142046d2a83291da792cfa54b234782;
 0x22a8c9d3df25905c7bf99c0697e139882609c08276a171c88dc02e85db49aecd;
 0x1c388261e076a0643d5479187cb6ed2431b5e1f531f91cdb5127baf89c83c73c;
 0xab262c3215d90263f02d9cf1a2350d9d5ab0114a1ac7826460f34635a55c7b1;
 0x21aa865cd024cd02104da176215444188f992aec9b53b65b9cff6390b28ac2cc;
 0xb048e05aefa0fb2c192ec55690d16ea6a969d2475762b9d21fdff8ada4a0bce;
 0x1cfb664fac48b01372f86f107860398c013c2361dc5671b98f13855c15732ae6;
 0x1c63978d82984a8f5b105d597d65a437c8298fb4074ee140622e9cbdf39cb479;
 0x68727ddec782a2d0c02028fca3757fa85e61f33afcf5cd35986732216509c77;
 0xd890582cc215340d3476b50bd8d22261dbcb63ee7c6ce19a411e809b731a563;
 0x184cd8e67d3346b0b1ed513225df4f8811f22b25219ac6cadc08bd27444c59f5;
 0x11aedcd490fc770af451bb54a698ddbd4a3ce266715ea85b990f01027910000f;
 0x296da6e5e32c20aedc69a743f6a45e4bb8d5f6604897b1cc751bc426ace0de83;
 0xba576970da392c54477158abd25968b60387158cacf5f08288954e11133f8bb;
 0x197e9d5129d713e382ae5ce666cd1276f88ddaae7dd50dbfab07019bc425f6df;
 0x298529230c8efca126f2e5f127eb577c1f8dfde4f6132e61b26933726cd7162e;
 0x97ec32e1e10cb019fa5ba87a78e31b4f56387df2dcf210639c9d9623efb5041;
 0xa696ad199a61dffa5210f5a67ef797951b25960efdd13ae477852993d9743fb;
 0x20e69110246861565203f2b3fefffe68667893cd881bbd0adbb07306bddf4ed6;
 0x27890f322bfd0fabc9682bf60620d1fc0434475394ec120d77088043513a10b0;
 0x19df61b7b8dbe8152c57a8d9524609ad5fc58b95d9dcbc6aae0fe50e5a3f0671;
 0x1f159a0092e8e13753d9a47082ccfd4e9ce23388fa7f48d0341e184beed4df69;
 0x3ef8afb36ddbabdcefa9b43d1e5557e89159576e54c7b1a177fea5a093bbfcb;
 0x1ccdffa3a8f918cd338b85146b057f87f8616a32159842f55744cced8fb463b0;
 0x10c6ce580770b491e04cf22221cece5ec710f9dc7048a98063fbca9b0e9ee3a1;
 0x155154344c44bbae48882ab681e1e402f7265858a6a499924f961e4241d7ea1c;
 0x168f28d28a2797945e7b4e7b585dcab192b1fc073f6b0e62afa8cc9161748c0a;
 0x25d99c080a836ecf0aa7e1299a757cf7c5d0a96b5812547969b3f09073d33a6d;
 0x955ad1ab1074db1280c78753ea4343ad05eee42d0bafbf3212c656c305ec55f;
 0x8d466d64b8949e4bd175392e4219922973eafcbfbd965cb2455ed3f2186f33c;
 0x1349923426749433b7e0014e827b3540c03c3a7323e7a25a4f8abfc14d492b68;
 0x15792bbe2a6f84147f008f84b591b583e6465cb6238ef540189f5e69412dd9c9;
 0x61a685b4ed05b65843a41c24b236a2a7b72ffd0602030b63b783c1e23923096;
 0x25d7f0dc3e0a9e71090c72b48b051b8d8fbeda393d95bd8e9cfbeaa19efeb642;
 0x2301c0c319cfd5520bc7f972b6646661135b2ac6cd82b0e8fbf7c814a9f38af8;
 0x2d6992f2df7b56bc9fa14e65d0070763dfa5c6d70bf2fd88e428ad1df73fb523;
 0x1e6621a98c65ef7ebeb275f696d11110d83ca8031014576baa10ecfd8411024;
 0x690e58eda24665799a2a1566986f05b3c342340a2855ae746a9aa6d7d0be2e8;
 0x282924ad2ab431d50d479c2d43940b471352850f32fc7b75647a537189e981e7;
 0x3983afede48f8107d3c43d8ef20050071e693e14f75835e7ce3aafcf2099d72;
 0x2d3e2cf3dd17405faa9cabdac559cab5c4b88c053ccf888161a702d9d08314d7;
 0xa4118cb11e35af09c80a762b665cfd915fb9cc105a6439859e8d09c6aae3b32;
 0x1f4f2acbf7868a099c0cf30ecfcf254210c0a9b6dd952090027f65aed87c2701;
 0x127456c9cf4b04c64ea3280f18b4ab9e1b9640762704c9343c5c93ca26dbfe2f;
 0x22f606187ade91dcd38f9cc7ffbcd51753713d431c32f26bb50f1a068d92b70e;
 0x231cc62f25f6169d570976385132724cd5aafda34f955f2fb5578c8eb6fad2e9;
 0xfc97d0e65f7aeab397cafc36966abdea922157d67dccdead1b2315d1f008cb2;
 0x2a07cc4343ea1b38982820bc9f3d8df014bd2be58b9f9d556aa1b75511cc8b7a;
 0x205612cbc125d00b4a26d5a2c748cb7b67f7f74e5c1a3af99d2b53b21f904527;
 0x113b94fa0bb37a7ce20e747694e19c4e197af3feb03e27e55ce1b6da8c7f8151;
 0x135f57c88890b109164b1f19934b0e3077001aa3c399b46cbe4b3d45584aecb6;
 0x12fec523a77be075ac0c47862f2b18cc5e5f5caa1dbef3d907c92625252e2702;
 0x24f864be35ef6057de078a85d1e96a6b6d65f5f76042fe46c8a028016c99163e;
 0x32a288d270185bc167bbc21bf43bd695578cfc4dac4f59ad26adff03b41df3;
 0x12a7a229b6de329cf40d61de15118d6050b9b235d6074565c93938cf9b5e564;
 0x58b63645e3963bebdb6eb639106c4e16c0fdef2be8263e23b8603fe2004241a;
 0x19a5af0c2b00b1da07b9d4b535bbbbddf052fdd09033541683fc54fa7cecdfcd;
 0xa2512fff94ebd00571d056704d5cd4a3d8b024c36eb2f29a03d0a6a69d472fa;
 0x17775fe72d1785abe11b76379bdb3541c88dfd6bbeca37d2c1e6acf28a00e5a5;
 0x144777351320b13697917dbba1c252315ff85fcb9e5c10f642c41f906c8c2cb4;
 0xcce87088d369ea25cf20315db73239b31df897915b70b38009d083111edefb6;
 0x1c83604318f78c187a80c78b8e2ef66b48882a091380583f3c14a5797c3ebfbd;
 0x195b1051102ed693e26286faef407469f0c233ea68fb74be5b8b801df4fe3972;
 0x2454f53ba4ff1c09b2a650cdfcc32735105c03116b254c20bd8a196285cf6ee3;
 0x2d0fe154a855bd683d4676c3607774c505ae33b0656425e2dd21a61045c4aa9;
 0x1a9c1aa65d05e90763237b686a59f2d738ac1eebf433993e27376bcdc6da398f;
 0x380c6ffec35d91b268052e8575072da510b5fa976400221113df0adc2283e0a;
 0x2f4835b7c8938e6e3d5a8d853cda5e24c879a5e0e7a79b63a8af8e3c02359769;
 0x1278111dbbaa46ab94479485683e473efdf45be249083c3f65762dadedb5dab7;
 0x2f6d0e205916919cd7c5381ab9263e9bfd975aa7cfa45ce9eb4b6799ff903538;
 0x987b79561d0d24c5fcd6c6bf1189b13f13aa0aafefb98a6c11305e7068f9a15;
 0x20a1f94ea39d9674beb0e237b74d92706b8f1beff58f420feb1a0629938ea44a;
 0x46624944f67281a6082d30e31a2d78225dea00bfa55ff2ebd6b4b6a4bbcfa0d;
 0xec86df4e2404b4d4c5c1c7f2b7cf4ffcae2baaec96f1c93b5718c46e32f4b5e;
 0x17a988b62f34331bc23c5c66fe5555dc2af680f9175c4e95269ff265641a7c28;
 0x2f933a4009c38406c103874cde91ec02d622067c7cac56890403c74408a1efc3;
 0x29c60a6ee7e22c0b8d8a51cf87215d4e3dd52c23c8c513a8c85c21205adaf4e2;
 0x1e2e3cdd712c6ac039aeb3d4dca4e92de5124a1a92893a8f1b8b6dd17dd020d5;
 0x1cc0cf1b5a677bb56afa928d7084c9e31d4f54691a9b90a2f48220fb26fb534e;
 0x3f5f53cb34ca5b6476f61d4b4cc01e1d123b90dff98e0447c801007e6404865;
 0x264f523407a076b04f72e26834ce8bd45b8c90dc4a915fa551f3ae56d50db503;
 0x1790319745f7932afc826f8c296f92b2c0f7f6b3cfdb4bfdc763d0a1f28f370b;
 0x3099a72a9c353b329a1bc4baabb784501c9037ba736c49806f1da48291041b5;
 0x1604aaa41bce072f44b6adbcc0757542e4caabcaf109eaf7af718ebacb090fe5;
 0x10eeb59a16fa139267e3c45cef01b53ce7dca8f8808ccc248fdb5728a799db67;
 0x12eab8cffcc06cef8d112bbe5dfba7e75534f64c4461d162fcb3ba06715947e5;
 0xc58e04653d88bba71e9f539b5030b937dad2405d225a30b5a75da8ae19c23b0;
 0x1b157f2ed740cdbf798af092aae5833bf52e391b113985ca6a30eed588cba4f9;
 0xd0837d097cee0020345d038d3656de14ee4c2833bb9cd0da1aff2399da436e6;
 0xa4225a5d367e0ce78a1255c9a69aa626ed22248763d190ed9dd0f3d35934154;
 0x1f6a2819a67e201a2576f0affcb09496ed7feca0b85058411d09a6e756ffe8e4;
 0x1c674a9b9fdb49fc966e064ba3da32c1ac2d4b6a1b4d06b96f75e31605c38cb3;
 0x20844cd477a2921e8ecb26eec231d8c6d9b846dba93db5eff2200acce3dc5312;
 0xa8fa6b656ac797be797f42e294b3ac4d9ea7d3d52125b9fd77f8d44cb729864;
 0x265947fe0877c73e0c65af54f643b0f3844a4b74de709fdf77156f4c338c8007;
 0x1f04e4663f2f9937cf07d3c2fe5f06e85414b960dc77a19e8d6e38c5bced7d48;
 0x6d020f03d9dd918c985f1e7d5cd39fad63f6459055f85e1b8d65c257ad64046;
 0xf4fb8263bc813190c44c383d548741b244d213df4344c3dcbce797969873951;
 0xe3b1e6adfa05450afba7cfbe8e8a08bbff6bbec099c68d5755f096075c21025;
 0x22fb7c00042e5e4ba4b512efb900224bc6bcd53cb1224f3cccd425331fd6f831;
 0x19375dd909e5ec26e7274bfb8b402c5d58ca19317505bd446ae80dda553ac71d;
 0x11d0952461edb9d24c6bb08afd369692173a72dec287f6b19353c3bb540dd34e;
 0x1da0872acf3b35eda099ccc9e9a5ff2477889bfa122b5bc54b4be05e898702a8;
 0x1a74a3b2de9a16c14c026b9c511152cc11740b9b9d99b6bef9f44cbf757b7376;
 0x221b345ba4b49dcbaad49fe51917d928c533cdebb44b095080064a93e6ceecc3;
 0xde529ef32404116fc0dd6041c8a9d3f7980963143c3e275f29ec6386c9c2bdb;
 0x1df03417e70bc8a58129a73f2bfed475f59cf6940ba48757c860e4d5afe912bc;
 0x1a6a6c5e41dd7ca162312935ffa4caa6e1681769b10291fa65fbc362c57f7c4;
 0x26be4ab855efa2c395a0bad51338e24283883973d0dfeb2d8584bb3941f7b92d;
 0x1f1c7d227986e5a9a329bac19a23fc7df52609360d366e0afce5913a809f932;
 0x75852ae085011a3420eef6fc4d51c8810d40f57ce4c54569e0349bdde64f25f;
 0x2e69ca1551e48a93009319aef40fccd78b8ab0eb3e6a75aa3a7cdc2ea9510e18;
 0x21d1d8183e5430aeb1be773620504ba994c1df4ed550a87505fd6889bbc70940;
 0x11866d8bbb8cf8fe585de19d816f444097b0d5eb88071c2785ac3a757ea5a973;
 0x18eb3fd0f6793a01b4e4a35050555a79fd43c7d9b305f42e9b676ed7855086fe;
 0x2874e162935850eb2b1e7a99847dbe48b39726bf75a18a99892b2bb6dbb141ae;
 0x43164e5c0d618af751f9458ad6107cc2c18b4e24968614daa909f3a664fc898;
 0x1c7fad75476d7966314daa926e188ac033bc3c0e9d754db747659d9845285f15;
 0x1cafa60986645969073ad8c0e29d8d46c4911b3336bd15a3895e10d0a39378;
 0x59b39a84beaab3bd16e649114d507aca8b49740ddbc4c7e709af251f7e5c002;
 0x2ef7ed14755d43e71ea6eba6d478e4197c5368cc9d7ff7c427e3c97adceafaa5;
 0x7e262f43947c3e4380bed5989b35368f6ee10185e911e2991845730df2acd78;
 0xf54ef80d9664876e7b9e9cf8ce300b9fd82929274f8ef4ba503096752083517;
 0x17b19a0cd7597c0b95a9d1b1f3aa38fede0565e34ebaee7c9957696f92a3fae3;
 0x23724db078fd410f494e5381886a2848618ffd4a8c088fd51133b0be784417db;
 0x87f6029159cf77cf228c9cf137d25fa4d842a084fea42fcdb2d0a16dc4cb3a9;
 0x2c91b436e22203f5cdf3b1c2188626007312b7e80ffc2c70264ff06560f3f52d;
 0x8b9793cf23fb5b0eebd2647d2bc7d4cc901d7074715b445b14fb64a55e43bce;
 0x214143f8421174ad70d3431efe9d40bed361820633e27b91cf0505a8950b3bed;
 0x1d5b88560517176724a85325f6279ebd9130a2ffa28cd00b07286fe3a982214d;
 0x14c9577c063d4dfaabc8eed7c32b99a187028d866e2b991974e6e63b0f838fa4;
 0x46273375bf435bedde590cb2bac88efee89adae8c6e27b01f7792493074bb34;
 0x1fd89f063226990387b017ebe985f55d4f6b1e5ba5a2bfd6f2273d2d6bb6a81b;
 0x502081f3b1250555aef587cb5b4b307d730c1bcd151adecaa53302fc2ee7bfd;
 0x10baa6c318c7e6a3a3628756ad42eca66a92be51f475eb386f96c026772e1cb5;
 0x1dfe4501e8b2ef4184e1a4d0f0c9cc76a8949766636308b02c66ac9823edc65;
 0x1a72d320faeaf05e0cf44db930bdbd8eed25a09bc14754665e7fb5f28ea3fcbd;
 0x266b33340a8bf66136e7999ba473455bd90f8aa53f455343339ed5b5320b0691;
 0x2448e52e069c6b44402d59573822c3b5703090216d607de4bfb678e1357b958;
 0x2aa25e459065532b65ab2780b63cf6f03d872ea7596647bf9517ac628b79a226;
 0xb1d54e7898b63a3adafee6e3a36b2aab81e39bf3a15a9b1f479b7499b2efd7;
 0x246f7f7d8e5ee80022d45348a5aedba8612c3cf4623a6260ddc931952512c4cf;
 0x27907ad369fc4b8372c78e6ab39d4a3faa44551f00b83d24a9e33e01df07ba0;
 0x2b67bd277bdc4c08c7908bb15ad397256efc62e0325327f8190c7ad9b09ea5e8;
 0x8a5e948d1db145e20bf0abfd419e70708b2017e8f8b1170459c2c767a7ee354;
 0x491c93811381bbf080cddda20357bbd01755d50eb869ac50ebfb775b49599fd;
 0xbbe5810c339505f191659c51feeac4d6dd8bc8396f30c1e4b3d89884035946c;
 0x3b065bd291e288a177f161e35c3652c57ef70e46e1742ef750ce63d22b24810;
 0x11f25b85db841ff7648ff0e35ac0b6c463c714fb2bc5f288970608ab353a6aed;
 0x2f14f75123210cf69d38f2f32b833cae0aa310e763486126d0d36c29e68014ae;
 0x267179f1f050aa24d1777e348a99dace45aadbf16420d828e91f7d8ba5d6b6ab;
 0x2d760a9ccd958f723e082c804dfc2906860767cc3aba88b35d47d95551a1283;
 0x42540133fc254876967d2739f1014934695761da4647d330b180728d9db97c1;
 0xd4fcd586135326975e12057cde193244cad1504c4e147115610c3affb06557;
 0x27a2352f8c5f88f643d6dea7251b027cd3aa04364fae60e3e714f684d05a8966;
 0x1c7e955c7dea3de14499e1b00c64512b1d0df603c5492f1d75747161c2112ecf;
 0x50e7bcbfd9fa9c1c4d29415b03c0d00a51c2bccef5b1c441d8301fdc7335956;
 0x1abb6a8eadef0940704d611503c9f295715c3c4ebe023abc608a8ff3704413cb;
 0x656203914995f78f4a1d5f2546387ef7e8b51497f5796521999bf0e0d1e80a4;
 0x1a2a69c7673f072aeb2ecc5e750c81bd0af565c71cbd0d3367efa7779eadecb5;
 0x1599622b5b0b75fc66ccd9ef20ec559bbf3f51a4a4ace856d8f687f6845c8926;
 0xeb54dfc23710746af102dc417a3645f5b1b87d888bf8db5c8cfb4b45eb03a22;
 0x19e1a6f91e97deb1adf0d25cbaab09a1f72006ee92a36eb59f32cf304d889864;
 0x201081529413a6f1f49f3d52dcddfc74acf146c6b32f85beb35149479c891d4a;
 0x20c393584e2857f57c23efeb7820186a50440c935bd34a4a17f2a5bbff287f1b;
 0x179cf0461c98a99f70c433f74f60fba50e7c2fc9bfdbe500a0a512f6be936934;
 0x138cb76d3780d42942bfe0043d625bdd4d6e91c83be4cec3da085bf250c18d81;
 0xe70444af01939c62a8ca5ff3ddce46e29b1e45ac6aab7d37297decf2063fdce;
 0x142b10f58204bef4cb15113136fee579513c126a168488c376c21adb62827961;
 0x124c8c607612b5fbd2af84ac37bee103eee11a4eb711e11fae7700ebc6387fb0;
 0x143fde70dd6bde8b26a0859cda512daf557c452fa5f76b542426b9fbc94f7446;
 0x24694de53a139a6435ecf716b4139ebd01cb403a2d386d58ec733736cc21692c;
 0x168618466211f05e88a1b771ac8959fce3a6352cb647d47346014bc486f9c0f2;
 0x1b9be7105266245e707a46e2ba3de8322d4a8e7bdca43448ab05a7275e74e43e;
 0xfc2c8e1f54e166049d5ff37f6b5fad79ae76d7f069f98f8fcf8f367c0fb3b88;
 0xc6f5833230640ce8e70af4dca674821cee720690bd349e645f0d8f59684ac48;
 0x24560e4af49ff08a2226a7f095e44890519c9b9976aefa3514c0b065a052e340;
 0xd61f061762684231c5f469ee0ac33f41d314add6a79d553c642dcee363ea047;
 0x1adfa57f4ec443e497de3046f64d189a7cdbe086d98c94cb1d003a59265d40de;
 0x9fc22885ab01975ba9aa4c8692a04d75e50971f7dcb7738629505532272651a;
 0x1c01bf8f85c8bcc035cce929aeae20e5bc95e1d36160e286f5a373032cbb49f8;
 0x2dfbcc48d7241a6674803aa64253bcb3210db37af2e9c036c47978c9842ae7a9;
 0x27b945d4398db7c68d13576a8928aac99aca88a180b31be985b85fa89d0abd49;
 0x277572bf0b290106380c4bf58959da217f9e689940d9db0fdbe79c1a154a7f89;
 0x831d1b88af8561c0eee6964bd720c377d04361f9af65ced7f0329e7deb715a1;
 0x119459ca339e5c8a1b36593a8a091bbe9de7c8619ff83a8d32a566c2b15336a4;
 0x27e8489bc8ced6a9f209bfe83f6e664fd2553ae84632a8dde85774f86a714f94;
 0x10fb6c8fab6b135d7a50c54f8b1fb574eb0542c05b9bd84aaf4ae89328d6f53d;
 0x1dad3864816666ca3a5d1fcb0dff07bf12d352f08aadd1d4a14b9fa9b2ac057a;
 0x2439afd2542a9c564b85fa68fec6f9fd48d54c398cdfe14eecb7ed7d9e09642f;
 0x2bea4058794d8bd725705e650875da2153b829dc245970082770a03546636a4d;
 0x292712ecd08d349bc03fe610ec2a0e7d9b8383e3df3c13af7e57365b48d985dc;
 0x241c1f77219d178d4d61f50838a69b6d7029ca1b36d3eb348a0b1a0b64c43530;
 0x21919178d0ca9874c90f875407e6de742fd647a7679689972cf02c2863db6e00;
 0x303d796d52867e994221af51b2120ff3822cd8a0637c9096efe2e9aa3d2c7b53;
 0x1f0f30243212eb4bec6bf9e8b794989abaddaf1357f7d81b79f227314e9aa843;
 0xc12581aed963a169ff1c33716c8bafc6be9a8b6db13a25889218223f850de7a;
 0x11459ddfc0f592b264269706501c04ce7bd998547979253ecdcbccaa3f54007c;
 0xf2b37146a0a04ac53e7b630871db252a1dd84331a8d39ea02961f938b5efa1a;
 0x21efcae659790676b5d9114b81d60490eb551d6b21f65f362f08208eafbe4d3d;
 0x1e1b56c6f76e3cc26284b04a42b5a02c5b9db9b842272100245dbbe7c876184d;
 0x1087be4d0c47bcf20a815f60ce803d5fb9216f1d0b474a781c85e8ed1478eca6;
 0x20c7a2c101e34270fc18b4f05d2b2f5a5a1298a2592dbf3f9b698e4a791d9311;
 0x2d4886f200b99c57f4f09c0c362fd3535ae906a11cf011e261faf48734a3b07e;
 0x2de6da1551b5f1d178de4dd889d03aeee464024fc2936097215c05ee14924f5c;
 0xd90348bd745e5cd779a6a6b5c4b625e1b86559d71c55a13b4a92aba2187aa4;
 0x141c3084044d2bcfe9594da6bf8175b950ab36b4433a7e61b815b6101a5bb703;
 0x67c3241799e3c89402d1048ba30030283b507553a06ca6b37a3872000412e28;
 0x148f39fd35a56bc7d20ba1c8922e4ad5c215660dad8d446b0f597edc42a1fe07;
 0x1dd1fd608be4764ee1dce05067899de53fffc6b00fbe475a2e0222a63c68c54f;
 0x15bb0f86dd0a37802b115a81d4e3f68f9a1d3fe589e5848bbbc5f5a5d77beef4;
 0x2642fdf5df1faf7aa6a2f37b33a665f163a7df70c86adaad87dfab06493ec72b;
 0x25c726bb20a1ba08c73808e00f829bd3fd95381e78c88bb1d3f347dc7dc543aa;
 0x1ca5808c3d68b51afc586ed44f44189a4f4d0e56cb496cd10f5de368966b867b;
 0x1cdaaea17a2d78385a56e99849637edd7e75d8556bfd8f241a11fd903af4fa87;
 0x255b06d48523f97d2d30bdcae93ce9803256a0723ec161b987cef062877948af;
 0x1cb3ff20f743a845c435fd3e2d10e9312f61da413743c4a79e67ab6c32dbafc6;
 0x47a32238532a7a734ddabb15024b8a154455fc2481d31c3548d1e725488651e;
 0x995b210131910f01df8976ae742e95e0a5ab490a4abeb30fce348e54dcc4e78;
 0x1bf16ee530c9c94a408f2ffd49ace7dde635099bcfddc1ee41def1d86adadc98;
 0x13107a5ea2a3406acdb6563a5e3f0809a1c6b7ea9a04928533266275fa6f521f;
 0x2d562cc0650028df6e30c07bdbec07f73eebe766a192d130a6c737fc9ce3db39;
 0x2efd12b5e4fa102fbd60bedc120b1dc022f8c43a2fce8642893698df53c23529;
 0x110098c916b523211e18b985f8fcc7e8a804bcbc762bfeb6c25c810ced552162;
 0x20a9d5216caac17db5ab45fcb6b45dfecd60a708291f5c86ab84da22ca596ad3;
 0x48c825409094d056259dd3ca7e15a08594be82f488d66f91b43af660dcf38b6;
 0x1984479ffca6b64a3b950372747c1b926ac36a7dd4f70e47e188bf7b410ded20;
 0x209cec7ee37d47a8a56f8484b94f5db20535b552c11d5fdacc80305fd825c8f8;
 0x2da9a692b08915b7b61930f011f76b09beb7edcfd6a19c48cde742e99cd49308;
 0x302f50ece4afa17d552370a4e12c25a3b0151a43e3982ef5e71a38c74c36ef59;
 0x1b46e081e756c42c783153f73a64054ff4985073b9a732153ab69c929470283e;
 0x15103e3988d0baf626bf9de54d75b0301a2d3927c65d70b72391b062df7cb4f4;
 0x1564e70062ed6c3b3ff272dea80ff3dc57ca1de688b1de481e7c0726376aeed2;
 0x1e545f388b9e05a46dee5160c8706da80cf807c6c10260c85ce04ac3d41efc5e;
 0x88cd407f0657fc8b6e8acf3ee2b0473e50e72bf58f54ea91eca40df80173dc6;
 0x8b8e42fa1c4104467d67c7a3e384a3c0043e1c1d537d06beed997e0b52abcc5;
 0x14f1b3f9e72031ba74e2e032804da7868d37bdec65c7b4c33133dce2b1990846;
 0x1619c0ecca142ed142f88a2fe0b0381220b10d3ff5c20fb67a66badabeef018a;
 0x10f620a862c7ec986c3ee7e92ee431caa4e8d3182bef22175d29542796c99925;
 0x2f2f73f3953af6ecea86f5ef29075fc4e01bdc083c03fe6ef89842cb81f57936;
 0x124ae93fdb1b32754036196428519c8350e699c10ae783b8efec04f6d0e4d40f;
 0x23bba8fd9c1d888cc9f3268fc54eefdf5e18d60b41f5794117c800ea9564f579;
 0x1da248f4d90e0056b683e2a892876fdd8efe474fb511f46955ad3145341e0d33;
 0x2fd8234511e54966d00f3ea4a65dfcf0a6aa07d09323f994339b43bcd98ee670;
 0x1cf83450d23c5fd64ea5ed6003ed6503737dfe249efbff2d05f6cc285b4adbbf;
 0x730028703b63880fa47aa0b948a2a956590f9d2de022298c0350636586dd7b0;
 0x2aee39a51669c14763094fb8c42d649064985ff1e175d8828f4e0252e908110d;
 0x236a48fec7f4871e2a0fc6305b4ed35169b942f9e8029734dc9a5f450b0a40bc;
 0x26917d74db7165800ebb0bb05afd8cdc79b470c1d54a5eb1dedad874a4a77acb;
 0x217279c9d9ad568bfde19952276e8a757021985b2c6c1967dcd8c3a4198a38aa;
 0x1f84a26602f83970a38afdfa335e740e24b8fb974dd9d8b0319c7cf6d3491e12;
 0x1429fc9a53a6937f151562283326d9f9954a2ad824285e563b67d2838e5dc265;
 0x253264e5b4725993807f799d6b066d3850232ecd10dbbc01e9a0d52f81bbb7a3;
 0x1f193de050e1e6fc55939e38c86903ea03252b489120d0a74ee2aa203b587f23;
 0xb179e9fcf3598400ce988278421f7a5eb6d5adc36917fa51649537396bdf99a;
 0xdd3cfd2e74ac6443f1089c4c0884a890801c608c1a53b503eba6153819f9016;
 0x11e4f43e73c18df506683d89a511b493fafbc4fee14c34a8343eb03d1c1978ce;
 0x7e9613f5cf6551a97ecdcc24d8810e378c9b542bb59d79461a4c25493571eec;
 0x8f250aabaf2b7bb58a09c6cd958e13c0b86c806c33e60f4cdf06789cd0241c3;
 0x1076a7855f3b7d1ecd5bdc7c0860391c57ae1ead3508ea994c31530e29c5a242;
 0x1b57606bfd71ab8e3b2ea9cd32a78569d00e8a836b8a2f94e165149005a2204b;
 0x16a0fec8e2bd755596396f1d1cfb79210796b85bd3bded82bcc2b8e6d4a61c5f;
 0x2fa939b78fd3589160bb09b35aedddeb43c10dd40c2ac6471598c4ad136889ac;
 0x2fec4aa75563f7b8ce369ac2d239486a7e2e593c4cbf7474fc20e5154227d91e;
 0xe1158e63c9b7df32d7c3f32a97e8e415343f54c62977e28f6be301418d8c3de;
 0xe11893c32e63b42a74bed81dd71e6348a9bcb55bf5835335580be1eaab2fee4;
 0xfc0701b9435b305b610c7fe0c667b33de7bbd330ca940d71d5ccdb7332452d0;
 0xfee4aa70a97580a7395d67a37f55330b908470fb803fd004d434ae664765fc4;
 0x146742f4531fa49c48480406498c6541600d2a303dd8dac971b7b920714ee131;
 0x26f145dc528340cb9335cbb6fb1e70d0c871849e7475e7f9c0890b907f9f6bd7;
 0xe307a3d20bd16381e2cb9d0b802046f3d33026535f1b2b7c03ab075b681cfb9;
 0x37518e3a0fd47c9a1e33a918c30fe9fdce4dd04dc0e938162d2c3a541394e5c;
 0x520c4f6bdc375ba8ef5e4f4d55ee73949386a813c60718db08ca3e8aae680b7;
 0x1a5ee091b74dcc7c3962590d3042486bb4399107600c5f6664b145b7eb8c9a2f;
 0x1986256424084fb797529cfab403b2cbf0b6626d4930abce17b1a64dae036314;
 0x3867c71d3cfa8039ab6407ab46053ab4b7405276f483dc98319047b951a156e;
 0x6d563050f5097774e456405b8c40d1f65b8a0a9de14e2b052039700bdba23fb;
 0x10767e56882be4809328a58d747c6d3ff85de6513d50d09c2e337d22eb11c20b;
 0x1017176674f93d48207e239674d99ee39b6cd893ebfb903a2a41f28ff0b56332;
 0xee7e6ce359254247932f4e03d3113c2ea26e51a83313e4c1649cce22366b3cf;
 0x26ff82c65be4374fccd75b3238534dfa544cb04228b8b17fde68bf54a791d63d;
 0x7e88a6fce601c48d5cd2ec5945e24080fb840c5ac75084146d4ba1a6a6fd617;
 0x129b8c69e8518bd16636ab0f1a3d7e39ada28a5de79ea5fba1b6a7d13550b85d;
 0xd794f086bc4e45eea6337cd1e65391049d5c3d3fee8947032c40069aeeff68a;
 0x2622b4fa8fb07226532b779e904eea44f6f909488cf516056bd81dafcfd60a07;
 0x25630c8d104693e7a5fe41ae65db35fd3f4c63f8f51ef9d0948ea2595f158a26;
 0x29023fc4f33c9028cdfa300500337f668de2a543847a619b6a6dcf7c64711b5a;
 0x2c05672e9a763ea209baa0f7c31ec56ebabb34c45b24b7097c841bb3cbdab46d;
 0x1f501c00c1ba8aaed173524be2f2b217d6b6ba00ac262ee58ff6220167ba201f;
 0x19ba085b36795a55dbf040e54c356e70321b81fae29be0d71d777d49c4f4bb8d;
 0x19b51d2fe788314270e14d1bc248c090da8605a40f7559216fb86482fe69022d;
 0x135565fdd6d3e651191d7ed1ab010433782f9b07a41dbe14629bab713c229635;
 0x22461ed7ba44596bf3a7402dcaed5c247b09835c534a81ab365148e148fd1327;
 0xe09c39935650773975a411bc093718dac77e8d7877666a85ac3da15805cdf8a;
 0x84ab85314402a0b68cd3021e1ae6790b27686c6b0ff2e4948aae4ee6cb5077e;
 0x143b5de83814814bc1553bc7ec9bc4756bbddb9d31843a9dafbc2936fc8cbf69;
 0x2a9b9ce26f0b8721be06da85ee1474727580b0237cdb08135baeee610a460522;
 0xaab3ea72f43d0064b776a4746ea6e2b189b7e06fe8d49ebf452ca4627a387d7;
 0x1656ffa30c037ac4573b8a0726888d99228ad832454abefca598c2318a3ec653;
 0x14a2aa2a598b2e2370d14210dab5c5eb758b0c9178ceb7ff3fa681da5c9bcdd;
 0x153c93de24e01c07ccd75236e4ec929b6efa0da96c687b5dc125f681850567eb;
 0x141707bdc7698398e59f4ad04ec44fab8b7f4f7b20096f78020e948778a90f55;
 0x21381259d9cd18a837dc34fb95017a3f32785bd91cc918589dae4212af7b979;
 0x1d5d10c13222b1716d7a1def6b384d727948b0fdeb19e723b2bfa1292d97547f;
 0x136ff9edb9c0568cd585b259aaa562ce3e24b30a6c4660acc0b5290d30a0da80;
 0x2f3ab4418bb0cb7b859675b9ffce8c488f16cdd8cea44c14de0432e6e2881464;
 0x2f03727d0894a74dc97e60cbfe74c7c7311b05d020ca878718dbf561db8bea39;
 0x4ddf88beb916a6628e60a7da981781dfb0a5e1076285b24357f229128fe25ad;
 0x818519ea2b71fbec6c6bfff87c978af4427e7bcc576dfa5c15bc4fc9fed263b;
 0x1154d1aa344585c4ecf9ee9390c84668dce99231c0f427e8629ac905234e9eb5;
 0x304298c6b5e2144ae9a508cd4c9f4c8160c37afa477b3829afd49d6a49fcb00;
 0x13650a58dca9fdae806e76454c94a2198bed24df36d694a7a533147548ad0234;
 0x7ccf19c8b8714b18d280a4c0ca0e8cc68e217516d1c54db6ff73582bf4d3263;
 0x1b28476e34df146b4f9d530b6f59cd03abe281be29b3246a50feded647083d32;
 0x1c58347a64fd5be62d478ca9d8fe383abeb3fa30d876bd5025ecf0701257b73f;
 0x1cc9002d4119596aff974310da5bc62721915092504126a6ff3b684383f9eaae;
 0x13d99de748b4fed4476bb2d6e9a4ec72b8b0488487d65822895a5267b35a5772;
 0x21a780abb2efafce61f4d67da7b8bdfac494839e8c384f090605a94e7b396da8;
 0xd9dc88bf3861f705b9aaf1f82df9d53870a0d3f8de4fd8b8c965cdaf6571886;
 0x78f3af2d13ebf855e840a8c858a3f2f14316ae520ab12fe61381c0d2d4a0469;
 0x62f5b577804a423ff3a473952caf7f052f22c8b438f00c32ac888d00c99713b;
 0x25a8c33d7adb7ddd6a19dd8307a935d9148f2e962475f241ed67051bec38bc7b;
 0x431652b03c94333a0ed76c36f1968d509ac73b8910df407b0343b9dd03fb56c;
 0x22123ad39910862a3a25397329e3dc149b50289f9095e7224a81d5f2d39987c0;
 0x2b43334743fc38c1bdcc7cc7d36ce441ab3be01674de449b15349a75cb937b3f;
 0x2d0a0bc92e109c5fd70afbdb871bcec178a69fd1e244195e2ddaeaef5ca10dd0;
 0x299db5f9e49f4aceb760a4aac36abc37af72e509ad6d21f6af1a267d2fefc6b3;
 0xc813f6de081bf25808656d58811a88b8ebd5fda5b1365a54f793ac2bd4dc0f8;
 0xe32673a68ba96aa959b25e655b9422d9871c6d5b615d14da978d104132fa938;
 0x1a9e9dc3dec2e712da952fb4ce7f64e991cc590a0a3fcf2463dcef92b5edc389;
 0x159ae72e80b1b65f43b5074ddc6642379e09c46769d7028b9d68e979abf59442;
 0x2479b211ad9e81f8180fa2d44d0675f8de36046df216e254dda9c043b34d076b;
 0x62f8b312f39bb2e5f11a786ea6bb051e5373763329dd904c5199ea19e3547dd;
 0x22963c036561dcec8e1dcfed6ce50a7270acb2e415fb343cddcfccb77906da55;
 0x4440fb323547f46c673d0de5a4fb198cfc8b94b64e0c776442fb1f189ad23b4;
 0x2bd6e08f96c7801d3ec73c04ec706e3a56e10e90904c29a5a09654d56cc39f88;
 0x531d0d6dca62ed2cb479cc2490208473ce78e2d63a2c1d6deb6a15f7eef493b;
 0x1611c38d07cbce2b51577b64073338f50af6af8a7d4e99928942b6a687340edc;
 0x148604fd234d2f542477c7a0c73a59fd9a19c5527e9feb4165e4f711d04d84af;
 0xffb01eb4752741b05b51b6331c2b1a03bcafad4adbf57fb621f8ffe3eec8e02;
 0x14af647ed36be4e16593f8a81335300459721d7dc9ebaeb1c9de2450bc7d2199;
 0x11e2a2bf16b4b70d91546fe3e9741518f14e2b6ee75d59640fd62f0606d6c98;
 0x1fc2fdde6c5ac257f4052f0120335407e533730d927809879de0d023726fe4f4;
 0x49e892045b8d924d757eecef66602987c317ba55b7909b5fbaa4adf56a9a075;
 0x18b84c59e8b5bdc9e4c55ae91457be4a66332b5869a9bf4928124e170eaa6c1;
 0x263c7be5644463e12efe717157993fd58751cd755ad31a3a75b7f52420208b1d;
 0xcb27cd239ea5d6f988acfb4b7de9a95b0eaab0ad0cec96c9bba0e6a2e459af7;
 0x3634831e8b0e73bb4578749a7875f57643914df478aec0c457f62e8d1550027;
 0x221ca9a31e8a11788017591eb067b1f87bc35b362e1047386378d85c24d26a4b;
 0x8d5dccfd2d2164c0086fbdab916a75527156b82ab4536120ab6548dc99adefa;
 0x1ea22f826469f0434f9dfe6749427fd15781564361adeea254850458ad482560;
 0x16259979de9e13b79aaac6ab8a02ec0ef26b0b1690e682ecaa548867fd161a27;
 0x25616133ee91e772b020d4c4c5953c05a8cea208b0162c82b57f9d07a5b6bcdd;
 0x109451ff7ee8fbfd9563b8c2e7df834f72422cdd68f9372759c3a31b514d8704;
 0x29e9eb61d0ce33c89954b0530ba55771f3b650a9ca00d0b52b6120da4bd97885;
 0x176b236b779aa963de6e283bc06f4d40b2119fdf226bbcc4d56f9337ee940df8;
 0x16a033d6c26609b062f9c369b06ebe1edac366e8534a33b62d0ec919855520c3;
 0x27cd66a32dd969ba9fdb038201742c8062507ecad62e8947658f466f2acbbbc2;
 0xf90038779e72e988033ffcb1fecab087f302ef61751a6a84946c997e634375d;
 0x205f70b96d6e7fed7449ff0f70be698cb5b805c7573d7708e2c68e4bdde851fc;
 0x1ba89c27c091cf85f997ba0e3dfbb84ba95d463d1a589826f993bf60d8670061;
 0x182ea2d905630567136f83ae671ac63158db9efaae71b5bd3ee0a3de9a9f9eec;
 0x6509a885fe116b967ad2cc9999d442106b2f0967bbfff02c849c5272a100481;
 0x2283f7d31bc75e8ec3c8f1db4cd383c04c02dafe42a6cc83205c0c1653aa855;
 0x17faf24d23b240bc3a43066d218db8a1d8928714641e72b41b74febff037d4ec;
 0xa03a9fc7aa508da326142e62c7d4818f593dfc50e14b8b834ab893431a2a620;
 0x71cdad090dd06cea45044f25a6adb52971594f3e161f62f4129e0b72a7a9407;
 0x11f176589b8244f55560096a18423ec43451d6e99de165a29775f1e056bae3b4;
 0x259f50c13a176f8513da7744fc31afecae0e9a4102a6bbf893178bee26a53d08;
 0x268070c17f66e82a1219f144e97ac1a9f6f926d8d606bbe66c2bc7c051ea538a;
 0x2feb1ea6480d6caaad0a25a3b660d0163b701931b7f73751d5e86a48f0aef56c;
 0x267a8004c0a4a65b4ac33b8658b1b683579ed784647b378772b4b66cc4c189f9;
 0x25d67a760f2a17a9435e5ba4d7486bce7a0010f771e909dc38cb40117e401308;
 0x1e14c2d3209d43e73f72524efda3960e16c8d16dac6dfbae73c7e75189f20d11;
 0x1c12410d09b3364340ac571b40bc1d74a9b42ab1001f9eb89cdc83a32656b448;
 0x2797b79c67a48c4e5210e93402f7f739d1e4f443664e6981df1b4232a9916f55;
 0x2f6fee780ac5a58cdafb653ff250ac96e02c6713fdc53ee530111131afd2dca3;
 0x96d875d77642579ca91708c5bccef61acd69fc941ce2e126c3ac394ca5b1a3;
 0x9c918b1f1284e123af4a4279598dae5c44e5c201475ab083daaa270e43599a0;
 0x14c0b0619695bf075a237947bc425adf17c35be75d444e54288a3cdc85b8ed19;
 0x26d8f29cc41aac3e0e39e354547c53b30627ec26e4fba33bd8d60979be27cb74;
 0x9d9f04394b4b2f5ba5c2e4f83e4f0f63e4c1791ef011148cb2196901dec70cf;
 0x1704c408583e92deb63655c36b90cba6a9a2c403261fa2201b4fe6ba10dcdcb0;
 0x30702b64d0a76cb0c9e651eb579263718b35cfe62e136472e08616938ff0ec7;
 0x19decf83dece35005309897a3eb81d5e25cbce4eb5e2fefec5cf68d90383297f;
 0x38c625f54e4d2ec49c3811c37063a1d108c0d5376cf97944ca1074964f7ea95;
 0xcd726d0859a55c8063056d8356ad29b410b1e1dd1ed0e282ae484d6b94c33ea;
 0xe9a0db14a18282d439947ef7412fe1e6aeefcc96b4ac50e7f430d980b47fbd2;
 0x1d3b00e67012591f3fe5bddc1eb36574de7a0357a1be28359c1518d07d5cf985;
 0x9745ec5d24cf1837696f5a867c3c6129a0d44c037d96612e99b82eef3dbd87c;
 0x2dd5e2ea41588db7b01cc611528850114adfc8513b37b17fb2a46f2b09bf6b1b;
 0xb3dad731b91ed4c2aeeb10410c51a6e925360cbcab20c3ddecf83dbaa7e4c97;
 0x49998b294f8aebbbf2fbbec695e4d2d56a9904ee051c84b0ee1fec9798cfb42].
(* poseidon_bn128_constants.rs:11549-11714 *)
Definition bn_m12 : list (list Z) := [[0x2cb13179d6e8a4ad1b9fec37376253cf64386ad905e240575fca86539b272dc6;
 0xfd547840f3a30a533a994d1fdb3f60ae5073f4484f34be951ee16a276fdeb9a;
 0x5019671bda026670c7ffa9081795105963f56ce327fcf78451fba2bdb3ac1c6;
 0x2952c18c15558f29b2ae77fc39e51a395f173a9097db404db765ab02906b27dc;
 0x2353a60af6bd61e5eac2c9a4263d451fad07380654d4792378daf752e5cc33fa;
 0xed6a3bd48174e370b4f264b37488b03a5e3f4c0f61cf32d3157ad3e3b86f6bd;
 0x21103a7aa20c8d15501be8c23504c6a912c6100c5d88085cc2e42a52302f4483;
 0x2fb232573e85d68c536d100c3a6ea9172884451e677b0d1cd0fb4dc4c27536b7;
 0x302a085be040ff9a709ad0c73238b0d1e11e1d17409abaa34fc45de29b541535;
 0x683e640e6154ef73c3cd6b1d0f0fd86ebf7e292e63fa84cf0a883c2f1faa8ba;
 0x1f09f3fb07f7f6476fac98946b7375095e014b28f23a07ac9fc7077144ac3979;
 0x598c38d2e2c78dfe4907c74e82325cb191d52608955b583e5826ebebd1857b5];
 [0x1f930557a284998225f5f4e4dfbcf5ac211f1b12d91b0562ed3d63285d7a714a;
 0x4c4061820cda9bf472df3f64d6afa004f1e8623d0a4f6142cca1f19a4c275fb;
 0xdbc22c3e54c924a882c22000951239cc263755dfcb38b27ef4f880e202cb5fa;
 0x2fbb1c59e9e8999d91c40f4d44233122ab35ffc975edfb43c53ed07dbf0d9c76;
 0xb8f40d2c4d28c472085203a0e460af73bbecec3b2b3a63f27028f2ca8a71251;
 0x28c01a9f01601bb46417ed466be6008595052f782e46857d81229e64e6bda02;
 0x23ce8e402939cccf36176a5bd83183a0d54a24ee6cabe4fc7f814dfbf26f85ea;
 0xdb82abbcd3a1b56f7fc8d116cb54c54fe26243702bd3d57e71f7ce0d470a40f;
 0x2e703ea9af99161acf9949da7afb18d462d85b671656d61c2cdee3a72390213f;
 0x16512c150c1d2fb7235efd2d4f0fad5fdd78f8d0cde53a66bc90206c82c4b597;
 0x298aa5d5a44565b75ef68df902d791d01d98a75e822ef553b1761c58d6fdf32;
 0x203fd2078ab2a8f88b7606543145ee34daeab2aefca31bc04a476065697cabf8];
 [0x18e8222f6907da5745eeb9cd4a9e62f28b8b710aa85fe729f9ea73a3ef0099d;
 0x107757eb0c0799f781308d83d2e057ef8106f6b656b45e7636181e113a2cdf32;
 0x966a21b9615af2b7563dfe41b8b9fc06039512dc9c8e1196891eb77f856b608;
 0x82046081498eee63c287c6fa3efcdefeba1b5272a77bba9cfddb56afa53c82d;
 0x2c7ecbf14b2d6049a6439d0f29f10e26ec975acc3e3eddb77c831a509af59196;
 0x144022e7e077ff22a2ce3dfe9923107d5aef046d0a1f2cb5f36191ab04eae4ed;
 0x170403d414148f4681b8213550951e238edc009f46b00693ce3d9c5800fadd0a;
 0x2997d92a5e9bc66c84f635e8cbf080eb720ecd4ca3e42c3ab8d088611880861a;
 0x21427b3a9a2cdf1e2e6c628906b21e24271d72c18b0261be68cca44865dece11;
 0x24bba58086a78541a8ebfd535c107c36946d78ba6cb26d227e615131f71d337d;
 0x1fd5a6eba52e9ea1db389a1fc8dd3d0283d737c18eb06e090b6fd2dc88e0a14;
 0x1276442d9383c52d50fc9b5ac34442a4ec8e9cd7aee6d6ceacc1a6f521aae4a4];
 [0x180e924d757d0be4066feb146ed56212e38acf9df4957432653f370f905b8b07;
 0x2acd39e3892ac429ed812863efa05eda746b55bb974694a4e77b9a19abb55001;
 0x17b18621dbd61df085da4cf8a03395e3700269c7df4d98ce4851f90abcbb3631;
 0x2a429c2d06dcf34d34730c3af8bc19b04abd652468de5a85b5d5cbfd9c23e6e;
 0x197dfb64189c09aaef94a1f542d8c34aea27fffba704202d5286d62bd0eed372;
 0xfd3bdb79cad913432b7d3828e072dadc26cf4903d56b8976200723846c6577e;
 0x29b9ffe05db2c52ddd1bf0e5c532eefe70497c7df4b97db2f0624836576a6b29;
 0xa2a006e3b086bf502c5b1540eaaec14b9c15bf88471cb6d479fb4563f016497;
 0x237a9e020908cd0edbd9eae8772350e0e731e3228b892fc5f64fdfa9b9daa670;
 0x6d349d6182ec30d68c9be010587c707f7e1e175c0d324e6added6337a72c2b;
 0xaabba39d220f30604d0c44dd47c3c70de3b79f5baa70a3a7a0ca02ae1b080c5;
 0x16ee980a2c67de24fa1a34082f11c71b7c45966a6e8bc6aa1a1dbc7ef6a9bab2];
 [0x2f7d0715d1391190e7b14a1242b6799eac3142e21f08ca02c21755eae77a55bc;
 0x29788bb6cd947ea9efaeefd0eeb7fd563fcc2e40bd623ea2b2442b55d98dc5a6;
 0x12cc274647fc572bb79035bfc3332a4e566a28011f69dd0874f01c56bc44c3e2;
 0x2ef584c3aaeedbbe2b4b103a61e94ed40a97294156ad7ddf0de43b845249f534;
 0x5f9a6a8d64cca12725dd15110f74aecf99dd30e57a7d99829cd8757b75b772f;
 0x2979d1aeafdf97988560d4ebbacfa6e2b7f3d026946abbb9d5397645e6e81825;
 0x153891052fca1290fbf83240d334fd4ce05de78adfaa2c9686488e0c47ce1fc0;
 0x1b8c7eb04d351aff4e76af7f9fa1114fe45aaedafdeb42c1c23503b122639c7b;
 0x2d8125dbef602bd970d11fad7cfe06c3c64f5687b09b960ab92b14f69efbea57;
 0x10924807f6fdc4e9e586792e3ace3001f16bc02e84ada5df51d7bd37243ee1ee;
 0x230918919b6826faa7124c5bd15d10c036d565e100b696a3be7afaedb2abba6b;
 0x1db922b8c249ff7bf96121eae9d9555ef7770f3dd7b056191ae9ab38a5ccf6ed];
 [0x2283ed8d5e6f9470b3f4f49a771061e4a4fc7dac683defcc0348a8862c6ce71;
 0x6ab8672c936070a10757adb45031a5e2922f0fb8b5fab3a4f5e3872fb582ed3;
 0x2c7d538b9e6d2b2e06e72f8aaab26dbddead1fef6a740a11e9953f8e8e9ee057;
 0x28e4620d210536bcaa42ee46b1cdcb21bf215933bae4eec639efbd51f4bb6557;
 0xfe0def70bfba40679aef8d5a239b3a1b5a52fe8fd7edb754aee2b182d64b66;
 0x22ae023520979741e5c58fb04fd25d12dc8f5fcb6ad15223a5da7e0f91c7b4f5;
 0x105c0b246660c4bd8a6f1b36fc3cff86a2c432c0dc9321cb50abb98a10cd1bae;
 0x2a5aba3b45e79eb2606b2a5b47eb907584aecfbfc0b4cd50cda1ce4854338597;
 0x23a3b23d5edf5cb66160fd2523b3a383142291c0e0ee666682e946b1d57937d6;
 0x26635f4df7172107dad6b7c3068d2d438bfbf486471039f9e65a9c8462a2c9c2;
 0x2bb28ef42f5fadab6a6ffd5655b36580deb063ae3081d587bb1598878590f1cc;
 0x96dd43a832ab68e35e57c98d7b01f2a2e5936807704593ac72c74001383f7e2];
 [0x21f60efb132b62909990b9f994f381a9c02abc3ccb54c5c8e8c9c5664c6913d6;
 0x1db98a562fcd1a5e4496e61264aad5ea3b455f46eabd8957ba671e9c31e5092b;
 0x2f30800c0ee461010569d36b60685a38b02912a020bc4708598854f65822f15c;
 0x1e32b1e2e6b59273a113d609663af6b30c95b36884fe5faf371de3d564213c3b;
 0x1b1523463a45a2982889048681a422c02ea373f8b8c1bf16c74a375d5060c662;
 0x5246ee7854b2e20e8612da021b30798e5f0d02a5bfd5e79d3f9ac6c79fa609b;
 0x6cdf8055439ac8424c435e7e9bea3f0ae93eab171ac383ed2cedb460fcb04c4;
 0x2f9a5cdb79645e3454c617d77a774feaf24ef603454c02076fc4c9d7548cc455;
 0x1b1625d757786a19a93b37adf7f22ca8a502aa4462ca78f7da2d7c22b37d7f9;
 0x28bf5488a525f5514400dce722430287fe8e4c810154056eb0f4d6fe61091cf5;
 0x21891bee31fb7bd89f0e4422b3c8f5b393299af0d9825db9be73e7b20097923c;
 0x2282e86ade85855d4ea0657c4add20625c6daa90bc93943b59a92dbb77b63681];
 [0x1cde82acee60b84424e9bcee49a5464ee05d1cf0b70469208a675635ac715495;
 0x1c4dde07d0f94d1aaa832ac2f5712d438b4e1804b5209ce55942d7afb24c6401;
 0x116c45e4d88ceae4565c0e94da844eaf2775d5f5b435d94d2d3d38b583fa7841;
 0x18820364804d22119347b728135b409956f7933defa1059d634b977d9d3abcde;
 0xc849d07b1d9e6ecbac517fc19237ff73424a0678f94699b23f76952afa4514c;
 0x2b60a4d43d12cf31076e0690e931716c47a86e7728c34b2d3cb0cbcf95bbb74f;
 0x3161d7b94e1b0411fc01dcfbd748a6df3156ff04536b3dd3101f7b2ebc3811b;
 0x6438e8b0220464039a7b8022f06beaee502c5de269db82f91d88fe1b72834fa;
 0x14898babc8810cbc626688531511a8473ed89a22569d47ba586c284e45bd0ae0;
 0x90dfcc0327a541672cfc26c7e1370583c5f9214177093010fd3fbf279aafd4;
 0x38e0c2e29c79ccf46b5ea1bc589276aec95b74e8bb82e4385c0585637c885f8;
 0x28331d0d31ca8675ad4767c490261bbfe5b84adb4ca2c5599a87f331908130f4];
 [0x118a24510a2153f818f0a996c87de913587805f16cdb1939d9406941f958e8e1;
 0x2cfc82712ed9d71ff4fdf63ee4ad116fac195794f8d910286c152efd9f959bee;
 0x2ffccbc40031ebafecfc3a97284bd0f6dc4d45eceb8b8998f1a667bee369ed62;
 0x9b6c00a37df2770cec0f1bf62a6aac3bd380c6ce9f4f96e0f0879237ffa510b;
 0x2c4036616c156006337771c1e355fc0f2f238e64cbd69d068aabb4b58116886f;
 0x41b909a658d136993b3f509a9e9d50138baca48f6b66399ac5c649e68dd3aa4;
 0x25c075b41ea2d827a4955b6469db9d41760faf885f2c6e9c09407ebb1c4dc274;
 0x115a91867233cc75d1c906a42930e93cb9c16afced390cc14435e5cfefb4e96e;
 0x2f8fb37178b525758bf6aa527f25773e1ebcf8e1425379500c8245c741ba3fc4;
 0x29a14dc4bac0a4c52bf30aaf6b9b8e05453d0d797246b64732d50f176a7ca257;
 0x2c89dc7562b91d8f2f7daa209b7560520b6bc62ec631db41cc5edac1fb142be4;
 0x14972bfc85de037b07e55332e6bc5b4f08f39ed4eb8a9721dffc4a586dd9a1df];
 [0x164567b0de16b7a5550fca229bac7cb0779524325e4ca5e78a86078881660264;
 0x18b49b773f5799888e9abe3f6883d7063333835b6cdd333580b2b4bf48f3b27e;
 0x2007424b129ade2194c73e6e2c9d79360d1360c4fbb8c5f31330f938558b3ace;
 0x445e26e26f91707da2df5c188baf80ea2f48c703614980fa798971cd8ec60f5;
 0x176804ec1cf85d35298351245d32236546838d9b98cf4242d601c7e8e501b49b;
 0x25b6e65e90ffbf910d19fe3ae23d037f8f64da9fe3df483fc4f4977ca36a7b1c;
 0x2fa2af7970e131f7efe3a7c788890ab860f76751e55b4ff634dd46cc4de660d8;
 0xc8fd4ece5c205190cf6c842d1683444079bf49835d5c8b8dfbb11af956ccaf3;
 0xe992f44463e2dfd267e6a4a1c3303ea7a1186252efd6c9fae9e5f0c1f6d8266;
 0x2609ff97ef574fd68d16a3de0872c3b59a5b928258dd1469826a191dcbf5bd0;
 0x15dc57879cb41d6015da9881f948b40d20f0e03fad87746d8575af009c96033d;
 0x6d039b64e82d7975dd21a37b5ee79308f20e82e23489382ec2d176190587896];
 [0x188ff303194112a7034527cc9dd0b4deb0960c9c106ce115178dd7087e4e8c02;
 0xb300de5b99c27d332091f8fb0d97cf04a86a51d4d2037788e0d4f38e8f4eab2;
 0x2c53d6676d4d4c87d9eaf5d4da08d1e98d103a3388d59a7c0c3de51e2623aa3a;
 0x19f5101715162976766e2b57a58674bc58e1ba2be18a59b07a07e4a93e038075;
 0x2f5855a876a37f7bbbd6104accfcae507e9ddcd2a7219b487a76b17c525b50ca;
 0x2c0de448a88dfeaacc9bcf2850b6ff4f701e1a538d69098bc94087cc35930966;
 0xce587066eae0c345c3368c53dff2170cdb081bee52b243a1e6de6d4f82451d7;
 0x2cea98cc64abd926df963da57f2ef4c434141cb53ac6311b2566edb957982713;
 0x2c7ae475d90c475f73c0d29be8889d0c4b8536fee6c0389984bf9e4dbb1aae6d;
 0x23238fda1417302dd03ce54607749610292945bddbd587241714fd3964af5f10;
 0x1c674ff2ead27ce002f4befc7ad5f0f5123e59793c0fe21075e819ce56ce1e83;
 0x2627be68d9cd0ccda3828d51621ba409f9acf09f1a9cc503a29ec306f8606ae7];
 [0x83d832adf9bb4a25f686abeda9f16ebf53263dcf9ef4311781d09920d094ead;
 0x541af6b96524662084d1208d71b6b2a8d66d91179745b213679c2a2bbc94968;
 0x2cf2c992c02a36334ff5dc851646ee7da04b44eb544ee3c0fadb8dc5eef2a585;
 0x6c5df8fd61eca2fb4923f0a46dd4e416a3a3b48c10ded13133ffeab6fd153e3;
 0x1a233c7cebfb0c6eb72dfd07aa2b537ccf291e84093aae36cc68002ffb83639b;
 0x5f6d62f54518f039e79aa726bf15a5983583eca4062405400acca58ca9d2235;
 0x2b09de93c6e3148cf7ff5731c8e144debb66ca896ecbe4089d2d22cbdb09777e;
 0x239ecd92517825174f796345db296562223760fb1b81c091b74a6a4a82968a4;
 0x2945cb85e34532e3a22fc576703797893ce290d0156430a8dce61c9df89a8bd5;
 0xd3be6a5b12bcf1bc705c20c30f320b8881c6c2ec00e857685c0599262a3cf0;
 0x11e7bc4a39d2730196b6c334f99750de5bb5e4fbca5d6a19eb7fe14abe845dbd;
 0xc7c9db952865fb9470f8aa1402536cb3b82276d9e288082ac7f83b10bcb6d17]].
(* poseidon_bn128_constants_opt.rs:1155-1310 *)
Definition bn_C12 : list Z := [0x1512df0135b6692589f071140a60749cf775c642b300da2fb4ad5c6e23ad4e5f;
 0x2b109ae037ed30361cf6544b2f4ce58f356589896d6a8849482ed3f9b66e1198;
 0x2585bece06eff553d485478a19eb149e2111ae4e1ecb1d61fc10cfe1c077f34;
 0x1ff896f4c0662f4b2ad926741b481d03b813a8cc343b9c2d2bc4819c70b2f3c;
 0x1b0caf02f434fa3d4cd4fbb13d3116ac8b7386a5afd6c67076ecbc3704aa45dc;
 0xfcb7c9f13c85517a7805894ac82b57c06f2f153a6f51f60f8e508684dfe5bcd;
 0x2dc2bdf7f43812e39cef210e42e92b4968ad8bf554541182354504d32cbf9954;
 0x5add9df20c1898da46bbf74594438beb07c9a65635c90f45c0a08febad13664;
 0x21cada6641664daa997fd55ace8b88191cdc4194fbdbb6ca5895447c8a58859f;
 0x19623504589a60f058b04489b153324d16ed66667a04df572b103590b848bf04;
 0x1776442d850a436a005e02c6475b72fd2d5f84452890c444162848ee1d57dec2;
 0x6c1691fd6d2ee98396610f3c868d70874f24eff853938d87face89234a09a98;
 0x17f0d5cf360c354a57e7fb986dadb3aaeba094920e772cdd9abc75850400aff2;
 0x3062c0db9c925c48cc2f80b698d9602642a84cfa30e1bd36408e2cf82ef3358a;
 0x239ec7e4b4723c8ed35b987db03d62c2a07c447bdd6ef183b0647821f6874c2f;
 0x2bd39ed7f4f6a72d02693e967740b5fa0314d9a1f8d9f8911c28dad3f15ffa6d;
 0x20350e75bbd562e339269cf7fd221fb7c6ed2cacfcc9036568bb4ba5cb17bdc0;
 0xe97bb9d9784920fb39abf35a433437ed6fb631525285dc3c126e24ef54e4b8f;
 0xb12ccc871d3272e80a216461403559048e4a5b3af445eeebd8224a7edac685d;
 0x1dfa3b05c202cd982e3d73cb81709d5d48b3cc105fa78ec8f0f216436826be2f;
 0x8d9fbb0715c9bf131d6de70b288d94afc02d46960459fea30e0733ed3be6b;
 0x292b7514248f1ae662e5437705ce49153e5be27c212e86107df1725ff465332e;
 0x1d58b0684f64db621ab3ad0dc98263fd7285d6bcd86e07a145bdc6aa75c901ef;
 0x4e7bbd68e9989a91190082f0b29b0b0adc2be282761c44d1ba687757514acc4;
 0xd93a5374677c75bdc1b4071b1948e53a1b67308e70ead178725b08fd9ed8d22;
 0x11eca18889e9f49b1f97d5998d235f97c163d1706b4d3d4c380d9ae1f3e79a28;
 0x266b924e67a868a585b398c2e3f28e3218783237862bab3e925e6e7a9d659a60;
 0xd2e26ad58eacea3b6a14c1c7803caca7ab3c5881bc6b5b274531c2d461867fc;
 0xbccba4532b7eea6c3e40135655171fbd92713ef6e8218169591e5013a84bddf;
 0x17a12ea9750405b3d59030af035c18e4f362e183da6b84e985808f320211d061;
 0x76510bb9eb19070dca388a1d3a95aecc5de4a2c69c3181665f982b60e0183c2;
 0x1b7034b3beb0680b858bc8f19528e8c122d6f68059b15c70599910c993b6bc00;
 0xeacf7ac9862ff85658521517138795da59f4273f1d969f815baab2382b28bd9;
 0x1344043beef1afc165d094c8c5da43e793bba98b579f2417a19fbfe538e2cb80;
 0x566dca10a0b92ce177b6f7282493e6b31391e6edd3ff4563277e504c441b1fa;
 0xc9c6b5c46b9877c2eeacd033f184fef497d2ed1a1ef276ba4548d05f3c78387;
 0x1a5f92921d4f34a7445fef0618f1b1a21d68714b80b6850dfb9c834f988a96ca;
 0x14d14e621cbe627022809f07ee078cb2b3fe4fa024715e3f7192a510f1d8e106;
 0x1b6f67ca2ff07a2de58f7a0ac8607c92fe8c4133355938cc9812c32b12b8fc75;
 0x4c3bb7f555a1a8747edde5fd33feec3ab52f53dbbe6ef23f7c26e62de26fa12;
 0x1aca03a3d87c90e7a3ffbb8233149beb0b6809492d33ce3e507951aa38a66331;
 0x2294ab2f143e49a23d279c6fe914d67ee878b3dc54f9d7ff107bbe78ac2ffaf1;
 0x2fb43038c0b4433ac0c9809f4e7d7e688f5c1d3c08f66ac64397fae941e6aa43;
 0x274479867a616c602e87c7521fffbaa85fbeb330128a3bc8c8b8360fb5a3296b;
 0x18a3410d063b4e72016500228d8889dc623201b4c055dab660b65347fb4ef820;
 0x2d6fe8d3d694ba5dadb904fd6904a251aa2d351f3cc11c6d1aa94ffeee452619;
 0x1ec5182518d6d3490ab0b3ff899ef89b61119743188eddfebb254dcd2a787e20;
 0x263a061f3ec9228bdf93eb93f2695fea629925d6dce82f18e6dba79b3be9ed0a;
 0x2fe0300a8196b9a46eb1f7d529b4d4c09dbc58765a42a9f3b61ef7c107bcd226;
 0x862f4486dc03350ea63843db9da09a5a3c3012c0854a7acb75ee18363dc0414;
 0x9ecd01d7dd15316f2d3df72a9e731274dae116592adae8a81eece51a4453353;
 0xfc127ceee377fedc0d2da69617739fe790bae028858dbe5db8a93e3254eb8f8;
 0x15d224160265df8e5e4c1b61e7f9560b3dfc57649f3038f440b64e928bd32970;
 0x110f785f7d04151a37b44935a1bbf4782afc72ad28e042c42fe63e6302550f50;
 0x17fffee137039b42943e6f8d044ae87ce06d5fb1c3e2e51e3009a45fa1873f70;
 0xacb1888950067efa97acad9291f63c05245cde116d7e0bedfa1dd90dac185a1;
 0x22a4abaa581375452fc3b531bd4ed54fef9bbfee016e665e42493f09c393fed1;
 0x25adecd63680d23f87be6226ec05a2bca8524963ddffaf863379d4c81fc793c4;
 0x220ce90ed6442f459eca1fe1f2027e6377e7189e0f6ef43e1cd364e9ca1ceb9e;
 0x2372d4e4009fed5ef65a3641db3c8d6ecb33040fc25989039394481a94b97195;
 0x11926b0acd944afe2030cf0e8994d90daa535f465967b64ab0b6cf69e316a51f;
 0x1229359753fb4a0dc741da84bc9758aa0a7662b314a31fe003474faad18e3800;
 0x2b3a66d166c51a62bf6af2e54897c51e45fd08bda74d5857adfe8fe3e4bc3977;
 0x1e7f4fa362bd86d6927781af2a4cac46a77a19b28c4ee55b2ba0881d2f7b8e2d;
 0x91f7d66fc8ea2e7ea95ec1876a93d33688f9f9d47d3c8b07df92d1554e38cba;
 0x2c17ae7d9af800bd393b5fa0f8b16293daf49e5afcada50847795b87e12b6bbe;
 0x266e76891b0271bcad1644b852ef8de9d3c3e7a53e22f6cf096ef44fb35bbbc7;
 0x24da30c34e49b417e6ce696fef7eb94e67b4d74db6d2d5cdaa4777c2602166c;
 0x4c3d31703ffeea22ef8509edd468586bad669b74c25fc9ada49a185937c2c94;
 0x2265314c66e182feca755f9a0cf7c5c7f7db6b501e010c283159f5fcc5bded33;
 0x1aa1766643eb30f96329fa3eccb67964d510054db9599f5f2536d7c37f5c1149;
 0x107e8da68896a4d3ab40eedf2fa75e025f787dd92799357218e823fabebc8947;
 0x191aff44b7bf99027bb1d6954ca0901c950f7ba8f1e1549475f0f28ac6e72d60;
 0x2d6a00ed5b8ab0055a4277b39d178918744ec5b4e5a392205dd4eae9b4f1f507;
 0x8bddd13ce3e6d0add2babc5f0da3ed9c24e10aafb289d03e968163c44f4e669;
 0x2f0575cf9b7deadb634320f90d84678d771833f9ac9d1b67c318973fcab18f13;
 0x1366a05d3047d5b3452fcc62417343245ea727795fb0d05efb80a75e1e4d7cb0;
 0x234dadc295579c62b1080fd64f340594eaf258b94225fcd6beb10e5efb4d6fe3;
 0x1f78b1c152a40027a2c7b0ac19bff6ede3202ea1b95e5d0af43125a33cea7821;
 0x1532e8db5fd0a6c2c785a0bca111741903fd089d9b73715bf0dd70c2e14df9b2;
 0x9012747fffe05e8b4482f278d35a28c6f58e6d502d69a5f351225225aa0279;
 0x105b192f778c42354f2a979d91b02fd33c52c59d542a128fc08e5d11c96fbd65;
 0x24bcbd8a492f542d2e6faee6c503c9c6f7a67cfc7d8e756759e0bae679920b81;
 0x13e55913295f26697ea8ce1aaffb07373dfbe24b8f41e789e05d8b96c2dc9e2b;
 0xac524f2908d8e1292a18ee6d5ed583c29626eebd03a593db01a61599c286139;
 0xdc402c7aebe3f023ca4b75dd5f69acf8af6607edad14bd806181077e41168a8;
 0x6d687b70f200804cb3b39546609c1ac2309c4b59fc96c7673ebdf2c900d9400;
 0x1e0c2662cdaa91336e10c7eb3c6eab12330a99da8a095e928f73a8b45accc8b3;
 0x14be0cbdb25a5f84d36b415f71ff807f9df89dbe6a9850213a288abde6db6264;
 0x2fc8c8938e2554d9d02e135eb0d2bd251390902e82d6ecb4ac37b8ab6d12233b;
 0x2059f3ad1d4ffa2787fe0577dfbf12701689bb3359647219d84a000e95c62c95;
 0x1e90ed09600b1ad7e5f927ba5e40d6fb87bb537c695d5ab6fef166da18fe7f4;
 0x64fb597e3bb0a3fdb8ed25eefa943f6ca21150b4e029836fd31d63cb81223ce;
 0x710644314ff7d6091eab77327421b8b18fbd64ab6f6756b61ba96d79854d6f2;
 0x17491b622e2f47caf07a2abf0b623896e973647d02be011f099b84af45dfd1dd;
 0x2c7aa4382c1cc1897988dd51243facdbb7d37e8cab2e27a26dd7fb0795d77712;
 0x14695d28c7fa12ea6044e898a6d8a6592a5f111a293624a45dc24944f77bb711;
 0x1602e77d6ee3a46b60aca6ba65c81457c4d36c8ee14b3559966cbea0ae32cef9;
 0x1ab02e5bfaf9d4ceac75f53983bae994d12d0c44a280d7e2df3283ee1f429ad5;
 0xd2b3a148b13d8a541e3cb82d624cb30209b4f58fef5121bb74e8eecacabd939;
 0x2e682ed8f03c5e95d84007e89a92043c968111cffe9d18665258df0d3a6a9b8e;
 0x1428a6b9c8cccc597a9eada39c3cfff0154fd9f5ce4878d9963b89c7a878cef5;
 0x125dae4075bd6f83314ff7172c70f192173a2d4eaf09d887b942d45b7cf7ada5;
 0x273aafea62ef6ad185bbfbe54a753e59f639ab2dff85b1f4c0a28e2136d4bec6;
 0x179314705df4e0b530f1d37f9d02c3a88b66e2272edca161365615999b1cf404;
 0xdc05aa8617d57fdbe30d76d7407add6a2e95fb73e9f942e4c242e2ed1016318;
 0x18469f35a1ad56b258b1e60243c962ee6dc99faf274f02feb42a8a51182652c1;
 0x2f79b79663182739a2fe0c607077163df7c0e9193143234337b9007cf472ff7a;
 0x1bb4d4ae946d5ec7cfb22cea828d263b7e574ea777aa891cb0ba07cb412c2413;
 0x27270b27dc8fb9ceb1c5aa5a49f97a795c1dc652f9012ea2110ac6877df6c20c;
 0x14da35468739dc3ff0110c91ef540be904c73e5d71e5b0b5eda5ec6dcb2f6eaf;
 0x2e90d9ee3e7c2164851b64afbcde004b6c0b82ae7ccdf6f78849fb981a35a2ee;
 0x2b15612eb94247469bd9475ae4bde9780511cacabd566c1e74ba1761d60b6158;
 0x121c521576ba4ae4a05ed2565651b2893d5f704e5c6f0a642c60e50df22c8ef9;
 0x23863fd0801582ee9b9a4c83f3b6eaef83c59068c0b1d4b9e93ec5ec1a0c2938;
 0x13a597a19307e90fb04778f82f2e6780a9e2c4e03cb0515e2cb960c51838693d;
 0xfe4f11040f7ec803ba86cc6dcc6ba00ed7569a00cb4aaf5685d014beeca35a8;
 0xc30eddac033e3f113894327db9763aafd747b32d1344b65ff7108177125de2f;
 0x16449ebb71737c6513326b4636914fdc9f7864c7f10025a09734880d423cd1c2;
 0x267f1aa1162b7284cec8df83403241884bf4a29547e2d0c470f6abc19fbc4e75;
 0xffa65c12b20f5ac05ab035a3b9cf0983bcb4cd0075d9a9e5be77ff9b4f17bfc;
 0xfe550d9e4e3eadc68883a977b6869a5887db153f6bdba49233f60bef77bf44a;
 0x255002f14c45aecf8cbdccc25c25cf16c9c771c653dd213a2ce22e190d7df111;
 0x160c6500540f89b145de5aa9fe944604eaacfcbf1c17550ec91da6078082ce1a;
 0x1383faf37b866d99769fc32b68e45a753f803ea36e351bec34222729356c6393;
 0x240b1af70af648da4ae6886dcad5c673e5b36aecfb7f2e58bd12564c5a77697c;
 0xdf9f10587e99fc6280b6a84f0ab1dcb4eaadc8958518ea2bbd5e648cca49e1a;
 0x26e4261f23f0856aef429a307bafdf1b57335d7a0f38ab992a77a5cca9b50ad0;
 0x145b8482c15986fbc1a4085dab239bf2d5b524632baed39273551273ce1765a5;
 0x25101aa4715ababd467f91767d0cd0e8037741883381e392c8521b08c6cf62dd;
 0x2896258f1d13f8b556b92d0b5fe0684f67a8665bd97747eb0364ed9b41cb2b9d;
 0xbfc25af60e375f1a7e09ec5c0411ee14b52346ede9837df5703420189fd877f;
 0x29a042bd25d6f3aa5df99619a794de17432fbd1c75fa33a1010c1af30cbcd828;
 0x1cd0de72b658cfa8975dce977ccc6b6cd06e4f8f49e620e72d7ea84ff2373c01;
 0x2197c4469eecca78bd4629b5d53bde29a8d3222bbfffc5948052e039f18e3461;
 0x59c6f40b2b1bb82739356c24e78eeb900d1d1057fa9d48289157af603d05dd0;
 0x18ce307b89e3700870c70a6e9460f1aed5169f729d2e75f7e6c7e6d0298fc334;
 0x27c70ab7d57ecf0b8348df89c42e3817450b3f018519673f9f508e5e1ddcae89;
 0x1aad5aabf3751e7d413b8138c2769035e8591227395d0d1ce29d1c5b3b42a54f;
 0x165634b54770542a49ff684eca304c99d9d06315412252bb82a2ce5efe24fde9;
 0xbe7826f267e77ace74a4eb0e10e5268f07f52cefc1d7b74e7a5b82a08c85266;
 0x263fdbeaa2840c05de52dd10fb42817361a189d2abd54ce145fec18cb11b7ed4;
 0x2c1ddd2e896c9dab5533d8400df17eb353a0191b9b97282df18774113657b473;
 0x894b90c18b05d7ea347b8dbe1471fe0020b9d0b1eb45a07b0f70d4b3bd90228;
 0x3056b80856c9e6ca2d92a5bb3ba46c03de22785d58565aba508d2d898068d741;
 0x1b3395901b0049172ec09a314e4a4183563727d32a87767a094d70535336be93;
 0x143e65a2a879b7a35660da4fe2141be33c17ae0e6f1324fb3cd9a1d061a15757;
 0x2f3f3a50c82372cac6815322698f09826210a571a9cd64c68dfec4711a5fe60b;
 0xbcc338d5a9ad15519aa00e89fe52cc24491416e1ab69635a67d3246e58b12ac;
 0x2a462fa9c4a682e118cced65a4aec9212496ddfb5de743729cb281ec3a76a8fc;
 0x7391449ce7efe315f816f0c1c3ad33b520007106ef8d11c2a2463de270ab282;
 0x8cc2bc080753c7730c57f179e38cbf95b95db1fdcabfae0a8d239342fc68c8b;
 0x1ce160503379a007e38ab3cce61d6fa0d78ff6b19526e1546023cb6dde3551a5;
 0x2fe5f53e6a16d7430ec9a765d640bd5de6587509be8bd773be71073e4e652975;
 0x2b9d6359e3de7b25159b8d2fd42c96244ad92bcb54f26ad8a6a10b2713de4d73;
 0x2f730a0fbf24810d49065521296809b50c5e96a6bdc4e3fe44d9d4517a259728].
(* poseidon_bn128_constants_opt.rs:2908-3073 *)
Definition bn_M12 : list (list Z) := [[0x2cb13179d6e8a4ad1b9fec37376253cf64386ad905e240575fca86539b272dc6;
 0x1f930557a284998225f5f4e4dfbcf5ac211f1b12d91b0562ed3d63285d7a714a;
 0x18e8222f6907da5745eeb9cd4a9e62f28b8b710aa85fe729f9ea73a3ef0099d;
 0x180e924d757d0be4066feb146ed56212e38acf9df4957432653f370f905b8b07;
 0x2f7d0715d1391190e7b14a1242b6799eac3142e21f08ca02c21755eae77a55bc;
 0x2283ed8d5e6f9470b3f4f49a771061e4a4fc7dac683defcc0348a8862c6ce71;
 0x21f60efb132b62909990b9f994f381a9c02abc3ccb54c5c8e8c9c5664c6913d6;
 0x1cde82acee60b84424e9bcee49a5464ee05d1cf0b70469208a675635ac715495;
 0x118a24510a2153f818f0a996c87de913587805f16cdb1939d9406941f958e8e1;
 0x164567b0de16b7a5550fca229bac7cb0779524325e4ca5e78a86078881660264;
 0x188ff303194112a7034527cc9dd0b4deb0960c9c106ce115178dd7087e4e8c02;
 0x83d832adf9bb4a25f686abeda9f16ebf53263dcf9ef4311781d09920d094ead];
 [0xfd547840f3a30a533a994d1fdb3f60ae5073f4484f34be951ee16a276fdeb9a;
 0x4c4061820cda9bf472df3f64d6afa004f1e8623d0a4f6142cca1f19a4c275fb;
 0x107757eb0c0799f781308d83d2e057ef8106f6b656b45e7636181e113a2cdf32;
 0x2acd39e3892ac429ed812863efa05eda746b55bb974694a4e77b9a19abb55001;
 0x29788bb6cd947ea9efaeefd0eeb7fd563fcc2e40bd623ea2b2442b55d98dc5a6;
 0x6ab8672c936070a10757adb45031a5e2922f0fb8b5fab3a4f5e3872fb582ed3;
 0x1db98a562fcd1a5e4496e61264aad5ea3b455f46eabd8957ba671e9c31e5092b;
 0x1c4dde07d0f94d1aaa832ac2f5712d438b4e1804b5209ce55942d7afb24c6401;
 0x2cfc82712ed9d71ff4fdf63ee4ad116fac195794f8d910286c152efd9f959bee;
 0x18b49b773f5799888e9abe3f6883d7063333835b6cdd333580b2b4bf48f3b27e;
 0xb300de5b99c27d332091f8fb0d97cf04a86a51d4d2037788e0d4f38e8f4eab2;
 0x541af6b96524662084d1208d71b6b2a8d66d91179745b213679c2a2bbc94968];
 [0x5019671bda026670c7ffa9081795105963f56ce327fcf78451fba2bdb3ac1c6;
 0xdbc22c3e54c924a882c22000951239cc263755dfcb38b27ef4f880e202cb5fa;
 0x966a21b9615af2b7563dfe41b8b9fc06039512dc9c8e1196891eb77f856b608;
 0x17b18621dbd61df085da4cf8a03395e3700269c7df4d98ce4851f90abcbb3631;
 0x12cc274647fc572bb79035bfc3332a4e566a28011f69dd0874f01c56bc44c3e2;
 0x2c7d538b9e6d2b2e06e72f8aaab26dbddead1fef6a740a11e9953f8e8e9ee057;
 0x2f30800c0ee461010569d36b60685a38b02912a020bc4708598854f65822f15c;
 0x116c45e4d88ceae4565c0e94da844eaf2775d5f5b435d94d2d3d38b583fa7841;
 0x2ffccbc40031ebafecfc3a97284bd0f6dc4d45eceb8b8998f1a667bee369ed62;
 0x2007424b129ade2194c73e6e2c9d79360d1360c4fbb8c5f31330f938558b3ace;
 0x2c53d6676d4d4c87d9eaf5d4da08d1e98d103a3388d59a7c0c3de51e2623aa3a;
 0x2cf2c992c02a36334ff5dc851646ee7da04b44eb544ee3c0fadb8dc5eef2a585];
 [0x2952c18c15558f29b2ae77fc39e51a395f173a9097db404db765ab02906b27dc;
 0x2fbb1c59e9e8999d91c40f4d44233122ab35ffc975edfb43c53ed07dbf0d9c76;
 0x82046081498eee63c287c6fa3efcdefeba1b5272a77bba9cfddb56afa53c82d;
 0x2a429c2d06dcf34d34730c3af8bc19b04abd652468de5a85b5d5cbfd9c23e6e;
 0x2ef584c3aaeedbbe2b4b103a61e94ed40a97294156ad7ddf0de43b845249f534;
 0x28e4620d210536bcaa42ee46b1cdcb21bf215933bae4eec639efbd51f4bb6557;
 0x1e32b1e2e6b59273a113d609663af6b30c95b36884fe5faf371de3d564213c3b;
 0x18820364804d22119347b728135b409956f7933defa1059d634b977d9d3abcde;
 0x9b6c00a37df2770cec0f1bf62a6aac3bd380c6ce9f4f96e0f0879237ffa510b;
 0x445e26e26f91707da2df5c188baf80ea2f48c703614980fa798971cd8ec60f5;
 0x19f5101715162976766e2b57a58674bc58e1ba2be18a59b07a07e4a93e038075;
 0x6c5df8fd61eca2fb4923f0a46dd4e416a3a3b48c10ded13133ffeab6fd153e3];
 [0x2353a60af6bd61e5eac2c9a4263d451fad07380654d4792378daf752e5cc33fa;
 0xb8f40d2c4d28c472085203a0e460af73bbecec3b2b3a63f27028f2ca8a71251;
 0x2c7ecbf14b2d6049a6439d0f29f10e26ec975acc3e3eddb77c831a509af59196;
 0x197dfb64189c09aaef94a1f542d8c34aea27fffba704202d5286d62bd0eed372;
 0x5f9a6a8d64cca12725dd15110f74aecf99dd30e57a7d99829cd8757b75b772f;
 0xfe0def70bfba40679aef8d5a239b3a1b5a52fe8fd7edb754aee2b182d64b66;
 0x1b1523463a45a2982889048681a422c02ea373f8b8c1bf16c74a375d5060c662;
 0xc849d07b1d9e6ecbac517fc19237ff73424a0678f94699b23f76952afa4514c;
 0x2c4036616c156006337771c1e355fc0f2f238e64cbd69d068aabb4b58116886f;
 0x176804ec1cf85d35298351245d32236546838d9b98cf4242d601c7e8e501b49b;
 0x2f5855a876a37f7bbbd6104accfcae507e9ddcd2a7219b487a76b17c525b50ca;
 0x1a233c7cebfb0c6eb72dfd07aa2b537ccf291e84093aae36cc68002ffb83639b];
 [0xed6a3bd48174e370b4f264b37488b03a5e3f4c0f61cf32d3157ad3e3b86f6bd;
 0x28c01a9f01601bb46417ed466be6008595052f782e46857d81229e64e6bda02;
 0x144022e7e077ff22a2ce3dfe9923107d5aef046d0a1f2cb5f36191ab04eae4ed;
 0xfd3bdb79cad913432b7d3828e072dadc26cf4903d56b8976200723846c6577e;
 0x2979d1aeafdf97988560d4ebbacfa6e2b7f3d026946abbb9d5397645e6e81825;
 0x22ae023520979741e5c58fb04fd25d12dc8f5fcb6ad15223a5da7e0f91c7b4f5;
 0x5246ee7854b2e20e8612da021b30798e5f0d02a5bfd5e79d3f9ac6c79fa609b;
 0x2b60a4d43d12cf31076e0690e931716c47a86e7728c34b2d3cb0cbcf95bbb74f;
 0x41b909a658d136993b3f509a9e9d50138baca48f6b66399ac5c649e68dd3aa4;
 0x25b6e65e90ffbf910d19fe3ae23d037f8f64da9fe3df483fc4f4977ca36a7b1c;
 0x2c0de448a88dfeaacc9bcf2850b6ff4f701e1a538d69098bc94087cc35930966;
 0x5f6d62f54518f039e79aa726bf15a5983583eca4062405400acca58ca9d2235];
 [0x21103a7aa20c8d15501be8c23504c6a912c6100c5d88085cc2e42a52302f4483;
 0x23ce8e402939cccf36176a5bd83183a0d54a24ee6cabe4fc7f814dfbf26f85ea;
 0x170403d414148f4681b8213550951e238edc009f46b00693ce3d9c5800fadd0a;
 0x29b9ffe05db2c52ddd1bf0e5c532eefe70497c7df4b97db2f0624836576a6b29;
 0x153891052fca1290fbf83240d334fd4ce05de78adfaa2c9686488e0c47ce1fc0;
 0x105c0b246660c4bd8a6f1b36fc3cff86a2c432c0dc9321cb50abb98a10cd1bae;
 0x6cdf8055439ac8424c435e7e9bea3f0ae93eab171ac383ed2cedb460fcb04c4;
 0x3161d7b94e1b0411fc01dcfbd748a6df3156ff04536b3dd3101f7b2ebc3811b;
 0x25c075b41ea2d827a4955b6469db9d41760faf885f2c6e9c09407ebb1c4dc274;
 0x2fa2af7970e131f7efe3a7c788890ab860f76751e55b4ff634dd46cc4de660d8;
 0xce587066eae0c345c3368c53dff2170cdb081bee52b243a1e6de6d4f82451d7;
 0x2b09de93c6e3148cf7ff5731c8e144debb66ca896ecbe4089d2d22cbdb09777e];
 [0x2fb232573e85d68c536d100c3a6ea9172884451e677b0d1cd0fb4dc4c27536b7;
 0xdb82abbcd3a1b56f7fc8d116cb54c54fe26243702bd3d57e71f7ce0d470a40f;
 0x2997d92a5e9bc66c84f635e8cbf080eb720ecd4ca3e42c3ab8d088611880861a;
 0xa2a006e3b086bf502c5b1540eaaec14b9c15bf88471cb6d479fb4563f016497;
 0x1b8c7eb04d351aff4e76af7f9fa1114fe45aaedafdeb42c1c23503b122639c7b;
 0x2a5aba3b45e79eb2606b2a5b47eb907584aecfbfc0b4cd50cda1ce4854338597;
 0x2f9a5cdb79645e3454c617d77a774feaf24ef603454c02076fc4c9d7548cc455;
 0x6438e8b0220464039a7b8022f06beaee502c5de269db82f91d88fe1b72834fa;
 0x115a91867233cc75d1c906a42930e93cb9c16afced390cc14435e5cfefb4e96e;
 0xc8fd4ece5c205190cf6c842d1683444079bf49835d5c8b8dfbb11af956ccaf3;
 0x2cea98cc64abd926df963da57f2ef4c434141cb53ac6311b2566edb957982713;
 0x239ecd92517825174f796345db296562223760fb1b81c091b74a6a4a82968a4];
 [0x302a085be040ff9a709ad0c73238b0d1e11e1d17409abaa34fc45de29b541535;
 0x2e703ea9af99161acf9949da7afb18d462d85b671656d61c2cdee3a72390213f;
 0x21427b3a9a2cdf1e2e6c628906b21e24271d72c18b0261be68cca44865dece11;
 0x237a9e020908cd0edbd9eae8772350e0e731e3228b892fc5f64fdfa9b9daa670;
 0x2d8125dbef602bd970d11fad7cfe06c3c64f5687b09b960ab92b14f69efbea57;
 0x23a3b23d5edf5cb66160fd2523b3a383142291c0e0ee666682e946b1d57937d6;
 0x1b1625d757786a19a93b37adf7f22ca8a502aa4462ca78f7da2d7c22b37d7f9;
 0x14898babc8810cbc626688531511a8473ed89a22569d47ba586c284e45bd0ae0;
 0x2f8fb37178b525758bf6aa527f25773e1ebcf8e1425379500c8245c741ba3fc4;
 0xe992f44463e2dfd267e6a4a1c3303ea7a1186252efd6c9fae9e5f0c1f6d8266;
 0x2c7ae475d90c475f73c0d29be8889d0c4b8536fee6c0389984bf9e4dbb1aae6d;
 0x2945cb85e34532e3a22fc576703797893ce290d0156430a8dce61c9df89a8bd5];
 [0x683e640e6154ef73c3cd6b1d0f0fd86ebf7e292e63fa84cf0a883c2f1faa8ba;
 0x16512c150c1d2fb7235efd2d4f0fad5fdd78f8d0cde53a66bc90206c82c4b597;
 0x24bba58086a78541a8ebfd535c107c36946d78ba6cb26d227e615131f71d337d;
 0x6d349d6182ec30d68c9be010587c707f7e1e175c0d324e6added6337a72c2b;
 0x10924807f6fdc4e9e586792e3ace3001f16bc02e84ada5df51d7bd37243ee1ee;
 0x26635f4df7172107dad6b7c3068d2d438bfbf486471039f9e65a9c8462a2c9c2;
 0x28bf5488a525f5514400dce722430287fe8e4c810154056eb0f4d6fe61091cf5;
 0x90dfcc0327a541672cfc26c7e1370583c5f9214177093010fd3fbf279aafd4;
 0x29a14dc4bac0a4c52bf30aaf6b9b8e05453d0d797246b64732d50f176a7ca257;
 0x2609ff97ef574fd68d16a3de0872c3b59a5b928258dd1469826a191dcbf5bd0;
 0x23238fda1417302dd03ce54607749610292945bddbd587241714fd3964af5f10;
 0xd3be6a5b12bcf1bc705c20c30f320b8881c6c2ec00e857685c0599262a3cf0];
 [0x1f09f3fb07f7f6476fac98946b7375095e014b28f23a07ac9fc7077144ac3979;
 0x298aa5d5a44565b75ef68df902d791d01d98a75e822ef553b1761c58d6fdf32;
 0x1fd5a6eba52e9ea1db389a1fc8dd3d0283d737c18eb06e090b6fd2dc88e0a14;
 0xaabba39d220f30604d0c44dd47c3c70de3b79f5baa70a3a7a0ca02ae1b080c5;
 0x230918919b6826faa7124c5bd15d10c036d565e100b696a3be7afaedb2abba6b;
 0x2bb28ef42f5fadab6a6ffd5655b36580deb063ae3081d587bb1598878590f1cc;
 0x21891bee31fb7bd89f0e4422b3c8f5b393299af0d9825db9be73e7b20097923c;
 0x38e0c2e29c79ccf46b5ea1bc589276aec95b74e8bb82e4385c0585637c885f8;
 0x2c89dc7562b91d8f2f7daa209b7560520b6bc62ec631db41cc5edac1fb142be4;
 0x15dc57879cb41d6015da9881f948b40d20f0e03fad87746d8575af009c96033d;
 0x1c674ff2ead27ce002f4befc7ad5f0f5123e59793c0fe21075e819ce56ce1e83;
 0x11e7bc4a39d2730196b6c334f99750de5bb5e4fbca5d6a19eb7fe14abe845dbd];
 [0x598c38d2e2c78dfe4907c74e82325cb191d52608955b583e5826ebebd1857b5;
 0x203fd2078ab2a8f88b7606543145ee34daeab2aefca31bc04a476065697cabf8;
 0x1276442d9383c52d50fc9b5ac34442a4ec8e9cd7aee6d6ceacc1a6f521aae4a4;
 0x16ee980a2c67de24fa1a34082f11c71b7c45966a6e8bc6aa1a1dbc7ef6a9bab2;
 0x1db922b8c249ff7bf96121eae9d9555ef7770f3dd7b056191ae9ab38a5ccf6ed;
 0x96dd43a832ab68e35e57c98d7b01f2a2e5936807704593ac72c74001383f7e2;
 0x2282e86ade85855d4ea0657c4add20625c6daa90bc93943b59a92dbb77b63681;
 0x28331d0d31ca8675ad4767c490261bbfe5b84adb4ca2c5599a87f331908130f4;
 0x14972bfc85de037b07e55332e6bc5b4f08f39ed4eb8a9721dffc4a586dd9a1df;
 0x6d039b64e82d7975dd21a37b5ee79308f20e82e23489382ec2d176190587896;
 0x2627be68d9cd0ccda3828d51621ba409f9acf09f1a9cc503a29ec306f8606ae7;
 0xc7c9db952865fb9470f8aa1402536cb3b82276d9e288082ac7f83b10bcb6d17]].
(* poseidon_bn128_constants_opt.rs:5030-5195 *)
Definition bn_P12 : list (list Z) := [[0x2cb13179d6e8a4ad1b9fec37376253cf64386ad905e240575fca86539b272dc6;
 0xc894a150b70154ed3c77c170df947769ac6fd8f4170d341613e7adaefc605c1;
 0xf784c25d3497fb7f058d93af7ae1a182bea00ebc2806c19377ea19a77db346a;
 0x1a4f48dbda22089500b402545867e341b6b6f14bcedd66ab59a1f1482e4f2d8c;
 0xf61b0bc7dc5911ba7d353e201a1f480cff116ab06d9e735e01889b688078347;
 0x15f5f8ed095948c58f2cb630b9b892b1289429c3c6169f26d4501cb4b24e7d72;
 0x2644c801ffbcdb796abf1036e3a240514c45708f0bb0616dc9f5475ab7ddf80c;
 0x15580d2d80baf18dd310bbce40e0447c78518aeabd02fc3d66bd0f573c1b7b4b;
 0x2103a7704b61ecef423c74fc864f57077ae9e68fedf93c4c24b3191c05552e8e;
 0x254310df353b2d1c72076f34db3ad823aa35b7fcea7124714bd5243d90c788af;
 0x23c2a54a64588d3672e1e11e0449fca37349013eb30472982df8935a727808d7;
 0xe25546d7af425b5954185a669c63c9fa25d3d269e036e2770451d2cbaeb887c];
 [0xfd547840f3a30a533a994d1fdb3f60ae5073f4484f34be951ee16a276fdeb9a;
 0x39f5e3ba736458d66a7276a3f7fc143f4d2e10cce779a0288fa042477fa8111;
 0x2834c6a4b3a7068b2959204bd9df5f9eb21582db300ac6cc9bc06188814e185;
 0x365a1836d0c970acea6a65b34b4018ffbfd2334bfc29ea050300fbca592da7b;
 0x7b2fe7cb2612a4b8ce45aadb192514490ad985b31686b75cb895938a99c35e9;
 0x4c72c3e92bcf3c9450146921952051dd7b932e045c56d2b8d1225c557a02fa4;
 0x18d459655484dea4af5de8922eb66fae69bf0b742ae678e6ac5ef937fd23f145;
 0x28d575bf09788e6c9f404c4f2a4794c51393c9fd263cebc2aab4f575a88c1ddf;
 0x15a78c5f1d6e0176ed4e931e25aa42576e7d172bc263bb5b22fbe2a1dd096b76;
 0x253af96dc191b1ddcc7da399cf751f0531e2db5cfbacce3efccf23e9aee0635d;
 0xbd6477a4e98ed1b6a052a7fe6a3d111fc2478b3817bd7c2dad8b1a813dd9445;
 0x1c371f42917639fd59992e6dedb5a144b079a25f242578b21baa3fd6fe98b51a];
 [0x5019671bda026670c7ffa9081795105963f56ce327fcf78451fba2bdb3ac1c6;
 0x1c9807d9b8968d8f620640d590f151e0914406af2136f902521b8f4da19cdf64;
 0x10cbecac3303667992c537c54deaec58a34528a2fe041591a98e64a8d6da5588;
 0x1bc32304ad49812a051886f8904e1af0a76149223fe72e96523937f339a5d9a;
 0x15dc91d6fb987bbdca99c78dd90a57b386e9b9ff7e4a4faf70d5ae18f431edce;
 0x22b26a76db2dafefccea7be76f0e139a0c568e92a447ad288257ef310794df28;
 0x1c76650a0527fe929be54a7e8a47efc654b515547f9cdcd58c146a0bd11872f6;
 0x23d3b9deecba2482b107832457fbbe5ff670a61069cdc34a6470d2293471231d;
 0x2b9a6b170ff9ce22246aa0b5091a7f33ac5a1b39904b61f0a7360c435feaa593;
 0x316258271c5c2be65d5e41b0bf6f9917c8c60944d1be7f60891236cde4c2676;
 0x1c67cb4dc98d5f02eb96d20f1134177396cea0f4fe4c04f856b0e2dad8e1b56;
 0x25a8f4490a5df4e1eb13e2e146e0deb4de3d633d11bc4a540c5a6a21934b94c9];
 [0x2952c18c15558f29b2ae77fc39e51a395f173a9097db404db765ab02906b27dc;
 0x1e7fcf514768abb1800ff4f4884ff5bb6af1ee7581b96e2984c2b2c4033379cd;
 0x21828d603ee0c7651c0a3bf6b18217e1fe33f283bfeaa1fa9ef9eea3b2c32fba;
 0xde712fca9d7df5e0f67d3eb731a53dfc7d1a7cbdcc34411f6138d6de60fa369;
 0xc58a3374648de30ed82a9ee0f4294d493710fe813edfa46b09aaf44b3ce6d86;
 0x14be55982212ae54cb8f0ce42a162a7ecb440a4c0c4d73189528e4b12d34e5c8;
 0x9da7079e3ff632329ed76acc28bcd293d69f9298fa25b9d5231f9611ece2c22;
 0x2d865f77a39255aea1b29c483eb4a3acbe7fdd909cf17d91a0100143979a18bc;
 0x2a39a308231582d0a1d003b5244fbb85588de1df3ac866dbc2fee6d1d8248c0f;
 0x474c582c59ef66cb29b984f6e4bd97bfeb5a41c6485aca67dc0555ed1eea61a;
 0x65cc505a691aefd234e572640f6c731993aadfdb529a9aba4bf6377ae28b69;
 0x2aaef152c413b4ef991bc228242822e2a6377aaeadc7ac22e502def3d839f2d0];
 [0x2353a60af6bd61e5eac2c9a4263d451fad07380654d4792378daf752e5cc33fa;
 0x28d0997942c3b3b0a4ae3b17ba382c8fa4e1809be0ec701d01501f142aa401f3;
 0xecf00f71b1814ced4f6525c4765846440aa3d39e7ba0e4e4610b70b5a38209b;
 0x1258d5a4d495bd4be6c704992ddc3e89f7ae5c6cbd7430014491fd234be89fc6;
 0x30513cdc3149663999036b87af10c4a183f71722572b4d958cfea9e3dca618c4;
 0xc658aba90de155384cd4d63e285ac2d004cd95a2e95da1540ef7f1237d851af;
 0x13bf5098cc05b1035e2f22bd47ab4041d8adbeb53c40aba04a75fc5d2435df46;
 0x2339c682b7084d04d3c9b6072b20b63b12003e5c52043c6336ba222397269a5a;
 0x2cd36c4bd8257cf74834663fcc1e38be2c3fed64f7b568e1f0eb0c269b0e14ff;
 0x37b5beeecf060cb73d6e08ebb984eb5d9075b31b128fa3e5234e969036ab5c0;
 0x118fc51eea37540b35bc2ad77d91af14dacc152f86db157ff4c48db58e325225;
 0x29efcd78bf5b6b7c9811b6e838f5563b349606a1959751d63d28fa4c1124b5bd];
 [0xed6a3bd48174e370b4f264b37488b03a5e3f4c0f61cf32d3157ad3e3b86f6bd;
 0x287cd855b94877a396d39c336dacdb13452eff5917a877edce1412b7ab24ebb8;
 0x4f06b7fdcc319605d038881cb47f61748f1e9f14d47dcf824abfad47a73bbca;
 0x4eef0886e398163b9f0009c8204cf2d9b0a4a30fb019b3cc46cca6ab3ffe666;
 0x2fb04567ad27a42a4ca2ea90a0f27660e1e10acefe62de96607aa26583695932;
 0x1f1c7c6bbbdecb7ad8a2c8a91b983b075f4998fc620c36e28e2b59077ab57704;
 0x78a3fd180d76eea922e4237fd65bb83ed4561b268751a20ec97d3e0d7460d27;
 0x11ce8d6554294777e161cfd91ca86ac2fcf71bea4228f8aea857187d579b606d;
 0x17607b33a1043bcf034c42feab79507a82488808f988fd0e13f2e2982ce55e0a;
 0x2c90418c775ce44e34d9de72d06a7c2c9cb072518bda77828b1e82fd1d19525f;
 0x1cfcedb53846d090e72523914eb33d6d2781bb18ff1a7c885eac1326e93f7a46;
 0x2a4d8464358084800c89f6fbb98bf69d589164f9a648f48d3a42aac8c5cbf177];
 [0x21103a7aa20c8d15501be8c23504c6a912c6100c5d88085cc2e42a52302f4483;
 0xc783dba69038bd1673bc3bed51afbf51ecde783af95067c14de12f49e49570f;
 0x1cf80bf06f3525aa85416d6cacd0e8251bf1b3a771be49253b60ca83f49b2369;
 0x1b6e663aa128709d83c7e5a86284927920043926cf55678bacd8ee0322178495;
 0x6146f62b14c25c15ac08d1756f2302395505138a4ee1184000a38f4c7f53905;
 0x1c5eea7863fca5bdfb2f4a3dad7e2a16572998329ab695adecd136fba4f4063d;
 0x197b13f8af70f642e878063aec6e21ba8978ef2322f2d64bb512ebfc7bc2c7c2;
 0xdfce2c65e220994dd2deaaef6e04537b35ee47eb92cdbbd7c61cc6189ad3f5e;
 0xf4b71f3763666a3dfce7517b6746ac033b2392ef742470ff7365ee5976bcfcc;
 0x6fa7b6308e448573f3fdd11a2ae8e44d33c3d3cf0d9ff8601df20c55c6aafa4;
 0x2390d163c2c0b5d461be5ae1f2dcf4c38c2aa514cb22b4b5e104dbb6889f8a9b;
 0x21c9120f90988cffd032feb1aac143901de9cf42ea3cbe83015e9275cb67907d];
 [0x2fb232573e85d68c536d100c3a6ea9172884451e677b0d1cd0fb4dc4c27536b7;
 0x266913da539f40df5123e01fb748b241795f1aeedaf1f7ae3cef0e5728d23aaf;
 0x2f6910e50cc8a14ddd99b667c6255bf66dfb3386e62bce0d74cbb47419c31572;
 0x24fe05893f5e7aabb44d705fe83fb319d29b511eba00b2705561c6bb0afd7b37;
 0x1ef5275b46a65f69edccb39f50fb90cc578ce4e519d54c8e61c31e6ae0710a45;
 0x137569526eda65a31fefc352a005bd0b10fff52cc5692edcbf46cc5f03538ea0;
 0x8552774a893c4dc375ee4efca4dbb742277f07d8980c54581b5d4d0dc1b7688;
 0x2d9b07507a9df2a587056f988c7caa44693a118daae6660e160561d276c83482;
 0x2c90b4ad79e2316e7986b75730418fe5d2b1f252e77817385d78ebfa34710afd;
 0x275fbe17c666f61f6cf5484db2e52083e856c718ff2b8f4d4e17f130d2989e9d;
 0x17f57c813764e728dd240398690408ce71dc8adf83e53f5257ac34b643a3ec15;
 0x2700ff01dce092807c3f143418c11a2f9db6bee6f478edcf7145d69af66e13ef];
 [0x302a085be040ff9a709ad0c73238b0d1e11e1d17409abaa34fc45de29b541535;
 0xf259a3b7e18add912cdcd8674b0f8fa910fdbbfad967bd816b33c778feda3b8;
 0x1e43f0a896764c42eb93be791fe26928f91c7bdd278b7c810a2f588268314b95;
 0x268094abd638ee0145279900f8755e55e1adeaf2dc222f402d1f08ea4953abb2;
 0x2e1bfa1a1aea7b44c84b866d9e7445e4acac75f82e0ea8ab03326214c84faa0f;
 0x2e1e2e2f2065961056bb63f04c175c1682eff3bd9073fd7fd76e7df0e8f12d47;
 0x3a2adbca7945b9a6367799a20c37944597333320cd815d054a5794f68460c83;
 0x2ba338308820d232cdd019154fc49774b0c884c7f82b9aebce6ea211db294991;
 0xcfcb2e3744279efac866e0228c1b3464a4048f4910d17042ba1a6b8cd12c8e8;
 0x24cb3811355775bf9bbe6431305ffeac61c7de7c629d9a5ef84d960cccb940df;
 0x257540e571a74fbe3ec524ff58f183ee0560d506a8d10973d77e54c9d9061161;
 0x2652e1e037bffec0d7be1355de11170b7f916d148a7c3ee3ba8fa44817d48fea];
 [0x683e640e6154ef73c3cd6b1d0f0fd86ebf7e292e63fa84cf0a883c2f1faa8ba;
 0x10017188ff4a2e0e9b05536c8d07e27d0f194cf0689d834af2be2b93ecf20ab;
 0x2afd3c4028b2ada5d194c593bb5e4e2710cc5c32edcd5865b59d4c7ec037e251;
 0xebfe1c74eb49cc73b0f6c3f32f096c2fa6288b0a04823e290cd02dfb5e5dbc1;
 0x2be96b6dc6b5dc0f78ebf844a52f6c1d50562238dbe7b95c47a2ba4ebc0e1c17;
 0x2eeb27f0c5a205ead76c92eed0ac8a112c171711b1d12d1e066fe3527174f6bb;
 0x131560b779c80ad8cdd22a9c3ba80290c76de761b1dc6e788f7f9493f84d413f;
 0x7039d5dc74b4dd2f6a0701a3179b502b212c3a4503557e6e8af0193f07a5669;
 0x16b1fa736396549a38076cdd9df36cc3385540ac1d7e42c79aa0c9cefc66a65f;
 0xf5008caa5bdfda3401446482b3ce891ca497cfac4a24ca2571a02a8ecd6e78b;
 0x427946475c0460b0fff4ad995eb4a9c608e260007589d7195b5cfb892bae4f5;
 0xad2c3c083a08091a9566bf29eb7506952d2ed27eda2fc0f51894b5d2e28aedc];
 [0x1f09f3fb07f7f6476fac98946b7375095e014b28f23a07ac9fc7077144ac3979;
 0x2bb007eb9685bfa373e688be53f5d6dafd6f87413c9805d20c579933c6ab1124;
 0x2b22adee2ededd40c3dcc8e1b15d38081edf590a9a7ec2eb630cbfc5292f238a;
 0x6ac8237c50116ad33685d84005ae724cc52e0ff4ade0d47b194f7923231d67f;
 0x217cef9e11c01178da427e2b9f7fcbe4c1f1525d76d3ba7c8850191545e58295;
 0x46e7d8895837a4a02894e5d6f3ea8d51adb0ad4897434ab0d0e8079253f2fcc;
 0x1f478986f1820203e99247b23f9ae06526a085c84cd31655f82c17037b1de5ff;
 0x3a1fee4f5ef14a50af278a0b62247a6669570858ac9b2074df28b0a4e9303ab;
 0x188a23c2b448e79af34b9b4866c954e698a6163ab9326f25f2dd746cd1347d35;
 0x1cb09fac676323645d322c13c676eb4645446638d83fadcb37c4f1788acc1252;
 0x263d998161f060aee0e6bfb95f1974efe466f739715e92c278128c7f18ad5e7f;
 0x2488b89af9d856ebc2f9053be37e13f9e1e546146198b764e0e0ed784115d94a];
 [0x598c38d2e2c78dfe4907c74e82325cb191d52608955b583e5826ebebd1857b5;
 0x27fe7a3879727f44da5d035c1ee30fd12b4a6d37a488981b4903d9340b67b7dc;
 0x11033939341c415cf31321211e351744c0831403f53a65832694b35adfea49cb;
 0xf47bcf189e8e4ba1b486290d0c9ee89ead181850d2ff29b97bca91518d8c2f3;
 0x53090370cc10eadfa09d586810cd0da5ed707080999f1211f0094108e1b3d57;
 0x2e2c801404eebd30297f3ec0ddf5e0dd9c1e0aab055268e647c3fd4712dfc84;
 0x203f12fe19f06faeaa77bc8baf4983c763081a7af43dc5e7bb83f789eaeee5b9;
 0x18837bc92a8af3d37214cb2724b4c8b904e641660e5a48f79ae4a49a7bc37ff9;
 0x9f0706eab57f151b23e4b968ba0b6bbd4fc82700acd601333382757a15de2ed;
 0x1e7d6dc15eb4669f914899901e7deaa91d102a4e4d569b40b9a11d1241167ef1;
 0xbc8d092c5d38d087f9f34faaecec3a55ee916469ff5e23e619b73468ee8eb57;
 0x2bfb96f78ef7fe047373d118c0aaa0140ff43e5dcabda257cde23856a654b6fb]].
(* poseidon_bn128_constants_opt.rs:13937-15316 *)
Definition bn_S12 : list Z := [0x2cb13179d6e8a4ad1b9fec37376253cf64386ad905e240575fca86539b272dc6;
 0x2e57ee9089adcc51f2ec7d5fc42821e67fdf0a2f3d1add870823002a1e9ff4a9;
 0x2346c226491dde21f38b9eb1be8c16084774e9dd941895eb362c2bf763050cbe;
 0x2c294fa2466a0a9f1f89b1af5bab1ed3b86a0ea730770854684c754750efdcc9;
 0x2519e073c3abea02f7784cd8c841ddcc10d65507cb4e85e8df3bf85a8e41a70a;
 0x21ea0bdd27e0b8b71b91ab46798b907ee094cfaca4c68ad81f9c0c107e7a83a4;
 0xda23ea74cc325d3922665cba17876a643c4f6ed46f9813ad0f403955757dd80;
 0x1207beb18149148fb6f50f1090b05de32ec5d438fb30604f4c63c237a8cc1d55;
 0x1c357f783a3df3f09e57ffb971a7dfc50c1145da9f3f67f323b4742ef3ad7f82;
 0x234747b2d98835ee8b90f19b5ea03c13baeb410f21211383ddb20248608c5862;
 0xb38e11da34730bc74b7f3add58779f2e0bc55734962a059306e4b950276725d;
 0x14732e1bcc452fb9fa40e72910575640b674bb5f90353a52356a6133f26cbb9;
 0x197d6117415de8855e11099ed6c9c4d76433d39fc7f4cc800d5beba27dc7b40e;
 0x2b3a311741f8b94d8255d87810649ef6674c7a6c7711a83ff88f2ad9f7e23c53;
 0xaff38c1f5500a4ee4949e5eef338372179779bb29c95142b3ad18efa9e673ec;
 0xdd0c48ff292bc764e9fd84841939694a761178783ba99381df579cd3385d8dd;
 0x723a053723b6cab73e72b36722bfc52c957f8c7fe0322d77348955575e841bd;
 0x25ca5081fcbc5b5d8b808627af3c9494e0ef74245f9aa45419d3c400dde893f7;
 0x2df552ff14232529c8216996f16bfab8d5555923d2e4a53706da66f4bb013969;
 0x876f56eb6844dda9bf30ab548c8f0b3c4127ebe7fc31e1cb27e3ce62bb940b0;
 0xa8f10d1b35ca9268bf4403635f76f1b9ac2e39ef1b5c9e6d8174f4bcf095df1;
 0x1212b888592b16b273c55c09e887270a15efdef111fb3f0bbab6f34c4cc24d81;
 0x5f5771bd30e0b5160466f322ecc23f28e563a44a80a3df85eb30b2a6da5681f;
 0x2cb13179d6e8a4ad1b9fec37376253cf64386ad905e240575fca86539b272dc6;
 0x26bf7fced0bbe938cd67479fa2f03e67cb8a775892e972ff4ad493655237bd8d;
 0x10a49b9136eea6f2c3fc79d946f8b8fd64854ddc3a964c57462ce17262ad7d93;
 0x5bc772beda5709a6fd33b3625682927678d5d7db7296f5703ccd7e40e0d8dc3;
 0x15d73afa88e6fb1b74cdf3ea97c694ce695fd39695ff3b7266371d1870f610c4;
 0x20656f69e483c5b05a2c5e26aeeb9f30d17b01054be5d002b4c312a32df35daf;
 0x2629526c99e13dd1862ab8d125a34cc68db0f3bc297d974044668daec9e567de;
 0x1e204bb473dc75bef5f17f5f828e521f657d8c58db1f4e096f5046589275609;
 0x2a4fc3c7b54eebcd023dd0907ea97d73cefc2955a5a8347bfb5c41cdb10fb1cd;
 0x374b0643d980373a12d798e8ce0f9e016a3b3d9c71e56e0b979534aabc3410a;
 0x2d54f4a821cd3a86fbeaa914483d0fa23a7cc04a6be217b4144b668ae70770c9;
 0x29fcf234a9344cc6a8541f6da7b2ec3b0cdf256408c362bd72048d808e72893f;
 0x4254caca99daf3eb34030e734085eb2171f7346ca2e9f43ae8f61a4ee43c358;
 0x2b4c8db3065c297d08b7f1cccb32a84a4bbe657c16ab0d9dee4bfe59465030ff;
 0x1248ae908fd75fefc42b13be685cade6bc106684ae4a4513ad415029374ae02d;
 0x1cbd111af62201c242a38f3a1bd792501cfdc5035c71961c29199a4a7167edbf;
 0x2eeba2b31864903d017a3036f11985a8361caf73d4fdb215c5552d9e477a7a52;
 0xd32eaed9cd5aba29a1f8cf029d022f77f5eb2011fbd7b8bcf442df70261c724;
 0x20971ff3e27ffa9dc609a839e591d688d07dc636d2cc79ce570c2e5b79f63b6b;
 0x2a8bdd4b9b1ef96bae00899ca737d2e1dca4917679af1c64f62677d2d626e314;
 0x26cfb0174d91280bd05b4e9553c044886e8b8c8b30c36f4316eff726808ec638;
 0x29f510be57ad8e8a7358c0697b8f2d761e7e6237c8aa2ee452d645c4fb5f3548;
 0x1c1cbfacde1ca981ae5f91b44a95f4252aacf086637ee431dc81a89d4db6b41a;
 0x2cb13179d6e8a4ad1b9fec37376253cf64386ad905e240575fca86539b272dc6;
 0x2b7856136f545d69ebac3c459451f28a2a53aaa144ba679023b2161887ef1250;
 0x250c047260e50160cd6586bcf0ea5180821fc71c3788567481a78e7c8b9514b1;
 0xfbf82f8a52984b9d4153dd6e78c05163c8d4720915c19767cbfccd0c3973488;
 0x6bbc95542ed85d6012d232b16d3d01deca662a0f61bcc164b6554b32e61f31b;
 0x28186714392c789ae58ef7134248ad33a5f12470e416718a3354f34056fb12ff;
 0x53afba658da76de92084f426da8b4c0330e7725be947aa266b8c2f9c0c55c4a;
 0x1844872b8235f851728c66e0b29d5cbf1cd0a0ad5ea4885b2c9967508965c9b1;
 0xb09ec5a6d9b68331f53ca5fed46443c6fadd52ea4d9c4640de3fc2940c0deb7;
 0x638529db7cc2182751ea21241763d10d34cbc099c578b2603cb0d0c0fcd89cf;
 0x5d066dcaccac1ac0448d43671f20833fae00c106de7fe28c9803d7715feee67;
 0x65da2f374618a50e6fa3a0164160b1e6af42a76e9b187115b330d60a548b3af;
 0x2e202380b8f6d90705a135c42066f1cfb905077d39e7a02231a740a3262c1e08;
 0x14570c40a4e7ef1c096e9d8fcc0a46cbde32dbb57916695206ab03aac2e82f37;
 0x2d87c245080329821da248b17456f9e7c106ce8a803d3d015a8bfbf952897c4f;
 0xda8c6fc810ca1891938b417de296864f3af15c28d6cb1d59e2de28ebd010fc;
 0x2018992835e00507a6f2d97c728ca059eb76a7fca5237a36e9aad99a61265cc0;
 0x2d9099c975eb32f31f10f807baea25ddbff205c624a66a4966aa59bc8aaae718;
 0x298dee77db6b29e44395264887603d287c45850a18582a8ac9bd09d292882344;
 0xfcccb87f04870bca6382244b43a0f7f92d336e3bc4d7e7ddef48160e2de989f;
 0x1297b03aae9b949e9a5186975613ff59bea3a058d34baad1b3c15178f19e7ffd;
 0x893a222f29077408802aa74dc37c833df480b350eb1ae31eb1b9f9b20b3f02;
 0x1231b1b0d91bc7687c3813b2da32e7c71fc9189641ea0dbaf1556ead8f36182;
 0x2cb13179d6e8a4ad1b9fec37376253cf64386ad905e240575fca86539b272dc6;
 0x2077a6155ab34ab05777651d0151e0320005731dc875986256e103209606fb1;
 0x11a4f3347aa9f08e59856002487fe97a4ac16dcb9a7962d139a3b80ca952809a;
 0x146016f8ce100f6cdc37afd22f00aa5359d531ce7179a2fc691fd12b00c12d3;
 0x25045870f9da8f4c97e11825c52cf4ce40bca1271ddec4ed01b774fdab83886c;
 0x156094487d4626cd97ecebbdcb8d41d7e70f28a6734dd3fc3382765ea111fd63;
 0x24ade6dedeeb900110df4f92bd790ebe1514d4b24bc88062d6249eec85805471;
 0x12ad265f80d855a7adcc2ab7b6bb9f49b50287cbd36e7d9e41860fc6596734ad;
 0x2f16237203d13c693faa6da2d3162b25d0d1be895c8026cafdeedacec7d7c835;
 0x1868f1766d3e2f9bb152b15a718ecbab287f6d9cd2e9bc5e66423b5bbc76e43d;
 0x128e30bad26f11c3be9a689a10d093822b5d2b920a1b78ddcd7df1a8bfca5d60;
 0x2e72c3b1f6bd3a793b27cd802532d2768deb9668ef00490a0716e95431abbc5f;
 0xa3e8c07a5a634ea815e1f57afe9494515da623e363a408e505e01471c5a2bc4;
 0x1a5c7a54a81fd93762ce79db6dc604f03bf519d683cb2702839662e69271bd6d;
 0x13222674c9603db4a5e5a36398d24d77543ac79a4a31db13b48c9a1998046035;
 0x333b7ef8d75e61e9f44ff11182db70311648a7b78addfe4f2144291ab5987a5;
 0x231ef3a554066132798e544505b11d50106c4406a937c9702c7bde44457d4f47;
 0x3016482ccd1ff28db55d6532420e95b9d3c66d1b8fdcee5b45fd94a4ad77088e;
 0x284acbcd8d3b7c6e7e7fb246fa9b39811c045820eee55e57e68d7a6cbb7f165d;
 0x17751244cbe20f816b7490b7346b8ddaeac1635588b765fc0e7cc337546999d5;
 0xe3b27a81103dd231517acad6c69e41fbf488237d0fbee8f0d652ec72bf09a21;
 0xaaeffcbd016b27891ec8c80384a7356211b9996a5cc9adebb24700a976d71b7;
 0x118f45236c875283cde478df3bd4ccdfed53d087ecf8d85d24bdfdc78b4018ca;
 0x2cb13179d6e8a4ad1b9fec37376253cf64386ad905e240575fca86539b272dc6;
 0x2cb4a528ebaecb5ce5044e609a9ec5f36057185a88022e8340d74cf48579595d;
 0xb4aeb2205324cf9c91474b3909faa82059ace7d53f4ece6e91971c11d212adf;
 0x2e879ff17f31aa36666dcd42303d4aad9f55bc8d55ddcd7b8c54ef46fbc8e66;
 0x1bf5f6555edef79bb094218b0980f27db57f9709b63a9c94b18552be085a62c5;
 0x20a3689b70840d755fbf88c8fbe323fa7c7c5aad0e8923a165370511585f07ec;
 0x10a50b432864883bf92a5fb77e6003514f43fe4a5a1c070a932dd8340eaee2f3;
 0x6162a58c2fc725a6cd4746c8f229a99f9616dcfc54014a2c41e97b9ec1eb29c;
 0xa12e5fbbbd66f0de0d49810e948220591fa478abfcdfa1ab0fc5fe861b2140c;
 0xb899ccdc1131b112724493af11636d6421db516a59e8fc7f6e8240bd7581bfa;
 0x12506c3ee2d15b082a2cf3111e9bca3d255a2aaa48e16eaf5130461f5d8820e0;
 0x2135481566f8d976d6c776c65949849e7dc5a3097d8a7570240223569350397a;
 0x227608e1587276aed4b92b8c602d81fc32bc957826e2c4c83d8e82a46d8ab68;
 0x1f4fc5d8d275e923bd82f8f2fac04f63bba4fc9558326ac9ee895fcf682b158d;
 0x1de5b21d942edc83d8c79bfea64f54e681143399bbcf58d4b31c8c9d671355f;
 0xc8d9ae8381b7de88ac2894407c8158fe09fec7e372a4548cc0dba4d9283aeba;
 0x28e6f24ef229a25016cfaa7e3007304951e75ca14e8eaf7b19c7e1df58033833;
 0x16c93e94d5ec1faa31dbe2a105286d839588fd1517dca2e03d6b01d381adb9a4;
 0x12c51f2640a3c05726d08197e01fabf7d5da91671d33e40e00f924027ab24ae7;
 0x1ba9324d77e86ff6234db66d6183912bfe23527e2c056744231d99982d1cdedb;
 0x6616e7b8b4f34595a4591bfac7429663b852e626d20bce6ee7805367987d67a;
 0x2b291b00aada886311dbd8e92fa67673a2e9061f87b43a3d4570515dbe9656f;
 0x24bc1c978fcf44441f251c075eee52c7b0b733edab05b4d2081a4b52ea798fa;
 0x2cb13179d6e8a4ad1b9fec37376253cf64386ad905e240575fca86539b272dc6;
 0x258a9d2af52b4fefcd409d763bd8e406c4355a9c488878a5a2c282adeafa297f;
 0x2fd82f70d05f4bebd46634d329f317e76cff5149a81424d1da18580f5c1eefc2;
 0xf4b503f7be48c09319c5a9b034ce2dbf3040873c284ac09f254f5ce86e88f63;
 0x276d0381d413ba30b831d3fd4a292440091a1f7f4ff919fca4bb2b2c900c1115;
 0x28e661e4cf942f9c9f95c503ad1d0a2d078ac4644c5dff369d5543aa7c48f798;
 0x2173c6794694634cce267bc21991598f3debac70920c9d8775947bcbe3f51124;
 0xa3fba241019270d5cd8bcb540899795fc593b5dea208cf016a8af970cf7cc2c;
 0x20fcd9c08eea8de9d38dd10180e9622d5e7c7493d0f8c511a4d2f9e5da45fefb;
 0xebc5296052433f86416ac17583ef06db0b6abd8d47110b6fc40bebbe02ac291;
 0x1d76be7dd20256408dad6674c8d0e51d5a5a5cb8fac79067d3796456168d002c;
 0xa94d77bf887daf01ce54f21c6891f3a9fe14faec2a1401fa3ee22a0244ed155;
 0x1174fd29cb4654d093226766b105e7ce63f0016a0bf790d847522e906c357a86;
 0xfc72bc5d051c4abd69d91c14cec4cdc87fb115049f1b08aa482f7ac7d7c4e2f;
 0x845158555b18fab6a2be184849b6569c1530d836d9ec37f9e4e14c2067420cd;
 0x28220c506fb21d1ff3ebbc47c2c8d766d427a30b53a3964ba575a21021d8b9d6;
 0xf45897a8f2b5c4214db423321f9763aa25692e0c05d46e9a45e5253aa696a20;
 0xf71e156500b67e356c98999c688c8b2a354d0537660e0852bfe74d038a4785d;
 0x1b933d41cac25dfd0de679e86cafc7d13855e4871d9b61e119b04d5199c09f0b;
 0x19287775fc90903925ac37f60e269bf68dc05675079d212bfc9faa6ff6a49821;
 0x207b6ae3483a8ce2bc1b2f428c1ee240acf3e1ca010f5820b0655c9d8eb868ae;
 0x25d71d41264bd75fd50528062bed8223a243f25d2768169b343334d708740ff9;
 0x2eac8212fc2ad788f72ebe8710f3c6c98625e52894645f3d714ac951daf2031c;
 0x2cb13179d6e8a4ad1b9fec37376253cf64386ad905e240575fca86539b272dc6;
 0x172fd12d4e03af148aed931034e7060af7b8e8546e9e4e7935a32fe7727ae3fc;
 0x154dd36eb45f530fd949b85233eb745aedb76297c33ab036bca6f2eecfa030;
 0xd6fee6e12761c3832a48a89989abd5c6ac7a245be31dc258b03c12cc30818c9;
 0x1be1815b17dc7aeca4440d5850f787c64f7b251ddb137da5319dad8d9025fa8a;
 0x2be2edb8867a2c4cb3fe2653db4b526e7edabc44418341fb708a6620509b8bfc;
 0x6c0fe57a444d90391ceb5a94ad1de1443bd026cef8763daace23a3b701a5cd2;
 0x1544a456bd7e736ec88816982cbaeef38530e1c8480dc59bb74ce844de7ec438;
 0x13dcec7c410c82a7cf03cdf661e4c477cda63b31d34274653980cf3f6f04fe70;
 0x28832482d1891b799b37a9f34f26a72a8ba4cff953001ad0581cd4080d039492;
 0x1453cd3bc8d13cfcfdb0ca235673e3fe47f91772a386b11b3108faaa8b04446d;
 0x2948c35a60690dda3b5dfabbc2cc392c585671d64ba338f5112d4ac46720e3fe;
 0x15bad7a6723fea31ca2cfb8b79a656a16e6020406193e22d51897bfa4f5a2d0c;
 0x2a3eecdd1a4f9ba57ab6b9d31a359352c49dc129d68d9c509a74af0d1a27a25d;
 0xd1a72d9a9f731b1988ba20f99d8b3d81572f27035d9288d8bbd3685b288f94b;
 0x2099ac63775453e12762b57075cccfc6fd9574a65f15bac95091dd9475351a60;
 0x60d681d211c02f7909fa329f6e05dbe7455ad5879ac8d3d191138b05d207b82;
 0xb751b2674878344d13b251440475af9b37154209de0760456b1dadd1bf90288;
 0x12c11a657f6024257b1d2e79e5a9b76a1efbc3c3fdfcf0392c063086ac58a01a;
 0x17c91cad834837b9a48c46400d3e25e1a9a7154c8fcbe0115452d3d23d265b;
 0x1fc3820af6ae6515fde45a315961e27549884e2b367ff88b4ed93ceb05de6154;
 0x17a167b5b9014ca6330036496095ad717f6e37a4dc776aab1b82ea7fdf751ded;
 0x46702f62b69daf94a105978608dd2c3a8daedbe7823e8f8275c8cbe16a97dc7;
 0x2cb13179d6e8a4ad1b9fec37376253cf64386ad905e240575fca86539b272dc6;
 0x1c44223b01de8fbda664ca95848b813295f013b8c208c88e9947d3fa8d244cf5;
 0x25c7179c48928fee7e9caced6240b851052322c5820ba2bdc329868ffdcc17d6;
 0x1958a68f02408107fa1e5de776901270181b3eecf421c6aeadc11866a64e2b55;
 0x17ad9adfd56f8195f4cd55cc87a833e9d6a12e091b59529d00ce604e99307f4a;
 0x5638e90a5883705652412ca5cf9fe315bbaa74743995b600072dd4be5f5ccf0;
 0x2467cf163474afc71287ec56cd6d8c6f53479aeb3fa0dfe5f5129db4385e5ef7;
 0x23427150e60b6fc48b7c8d5140c07d0f97f81f4397c0959fc851c88699c8f02f;
 0x16f925f73e091b1749ba5560993157d7259fff13c2010e4734eb77e7ada60aa4;
 0x2dfd7d6796e20ddac5fa12f1e533957c671fabff0c8c74bc5b8ea8ea4a4c87ec;
 0x664c8b4ddb68209c1253e424883a0fc059fd49be46a468ffed7bbb2c8978eba;
 0x1f3ce48c3ee2922ba46f2bf0ed51535e1d559d223b489bea2989116d48e7bd25;
 0x84ae17ff7f684885a4f21d24613d733fa2de7c694722611fc1e86c144618455;
 0xae2be5c975fc9c57eeb14791c5234c2f3e74c8ab151d4943fb98f4391888c11;
 0x28ae3fb3896a81bbc583a2715c9e2193209c79be2a4e9a894ea265010fdff87f;
 0x1a66346aedcb602f39974b69bde3c83fc72944ac6c2dd32a32ea5b3384b4173c;
 0x224a43476e893bd20cae3950ebb698bc5594f0f70ec5be20708dc428b2aa0b05;
 0x1d78ef43d9271f5718da099a5ad658993aa6cc4e263f0227433c1c0700be9a13;
 0x1c2ade57dbe0afc29e9c116a8b52dc653e3b67e891ddd363e1dbcd515c7f07ba;
 0xd3432e9b73c810f7b1b013cd2c9204574e75dce2c85d7279ba1ee5cfa912acd;
 0x10c5edc9f4201dc2b0366ea68593aa279438745e4e98024b5da5300bbf594f95;
 0x1424d5095a3ed3c98e8d59c21743e2ee18e6cd2fb87a4f8fb566a51d550747bd;
 0x1ec3fdc3a02833039f3ef99f01c641c62f0f90af4e2d9a961048e9b87698f117;
 0x2cb13179d6e8a4ad1b9fec37376253cf64386ad905e240575fca86539b272dc6;
 0xd9abef260b1cb444cc28166a74e729a2833e12445aabcf151c1cd036d1cb5de;
 0xed6cbbab2f8701da54b8b692304d8a4e8cb2e08f655c88924e27f4f15a9a52b;
 0x2c637eacb602a657668bd513a7a1007d825cefd98444e38b021b2c1d950a76f1;
 0x20fa81a9bf57087cf32bd01facb98697426792c6ebc73d02db7e5ae21b750d19;
 0x4f1d239fee709de5b0b5e5d5de370404d7df82d22b08c30e38a7550738aef85;
 0xa1de402ccd1aaafecbf31017e71429162b1c6d80579bfdc5b1eff7c48bfb810;
 0x1c14d03118d712c8ec5c8fcdc25ec9f15bfe8857749a7d43df91232dd65f37b5;
 0xc5e0c42722e6a74e7c9d75d128df4a564da3e0fb809cf7768615a2cfc0e9183;
 0x78c4b7313d470130efab6d889ce7c18832e610f66981841824e6f1d812072bb;
 0x3668b307c93ec14fd047713c1acdbb0b9248574ee5d6fa34fe883f1c22f3cba;
 0x23d9be76930ec686660aeda8b0cf9753e10c87300ebc641ba98e09dd2f52fe4e;
 0x29a3b2345ec04133c77316b42130de0131eb92263c4dde2ea07063c5c128680;
 0x2094711a12812e287d245d3c3efef7c17f18aa907378ad5060d80712b195d4c4;
 0x5c8d6aed39e2d9fa9a2eba112b4ca0aea1afac2c3a68622b50484a2c356a567;
 0x15235ad2ec7319fc572119534453ceafc36bc0bc2e4507a2a8ef1f7fa9e3e856;
 0x2a25158b0df94b0aa9db35f56bae7b9935418e9d6ae0d7004e23fcbd38de35e2;
 0x12db88ed4056400b8f336eb2d50eefb47c8cb34c31708093cd4f7dc30a13e2d6;
 0x10f2112348242ce97f64d304a108694283ae8959e5c91731b625900540bed1e9;
 0xdeb481ab3456ccc232dfcd50eb82acb8feca59538be59659fbe39426181f3c4;
 0x2bae45f1c2ff62e6048fb24ea8b3f732f6ca9620040285b5f89bc2d4db28e16c;
 0x2b93089446d7130073970ca2059fb0c06102fc91a6288339b687470613fdbf77;
 0xf0115aff5d6fc582b77c744e7a3310f569a0e786e12b526a741ad7e958e1052;
 0x2cb13179d6e8a4ad1b9fec37376253cf64386ad905e240575fca86539b272dc6;
 0x116ba64981344053dbb50022cf797b7cc2fdd015965ef309453d3f249d581b04;
 0x15d813aa4208144a30d1b4509db1009a7eea4f4a8ba43145f72a0d9231a45553;
 0x1347fc037b2b26fb2308cf417715a9cfe43c2c65f2c71c7bb6c5c40ebf730e8b;
 0x153cbb5ae6b6d48a1360870cfd5f5e0f4c4ea591acd14df7a02b2edcc2eee347;
 0x249ff166662ab43663e65ec0789c6ba6bf1b8594471a26162cafe6c32106a003;
 0x72bc9e678fbc25cf9101f49cbcfc48cc0a51b86aa9d7e66c52897a5d3f5dcab;
 0xa6577ae2a5cabf4c9f00eea76f9fc2196288f1f8b3c16d54c21fbcb28a1da20;
 0x1c610a46a4eca6c1215870d8d35d92712544192b256de5f82ff6d3cd6eb327d1;
 0x2b9a13cbeb3acc4a615f45dcaf18828c844a1d61be9b59201a8fbd9db0cb2640;
 0x2ab0560dff6af3c0ff49de6b343eae05c665a0caf15792d3cbd8321119ce2b9b;
 0x16de08dca0ad6de9eb247866b16cf89da11890bf1285318b92cf302d8fe144fc;
 0xcf760300b2969518645ccbbc9d94ff315b966d828ce76e9e665fafe496dc979;
 0x260d564df3dc0db676e22fa410e41794fdde75c4f19584b43650ba909b44ef55;
 0x78c91572dd1477b07006fb1b5852ee50abd789a190db81c0c51de867ed1fc11;
 0x2280039d47ad466e5af645f064e0c10cf12e92c3d40675008d4c4eb9e873807e;
 0x57e2320efb4234e61691c9bb57aeda4fd11ab282b2cda1f69e91871700c81d;
 0x22f771ba7d2d275cf543283250aea007432a03973c77a82744bac9fd942136bd;
 0xf01220ddd07023709c7b55a1485f0a5443030435aa02d9ee677fe4d5ea0e62d;
 0x2e1da930eaa52749c15bb6bcd34b131e7c33ea3ada98437dd9b7eebb22db48e3;
 0x6d621c55789875af6fa6645af8da7331e54044a5ba01c54891ba11af10a36c6;
 0x1ac30223485713604244857141dacd036ab088f29363eb51c3113eba8ef808d1;
 0x24f06bb121eece3bc8c62e05fa6c0ebe28925e2a47a6d16e3269c5984682da4f;
 0x2cb13179d6e8a4ad1b9fec37376253cf64386ad905e240575fca86539b272dc6;
 0x146b2acd097033a165d7525b2ce6ccaab4d541d5ea58e215166d393cd5677dac;
 0x1fb587e5904d58efa007310b9d86684fac658ed406c70d0e2af913ea416003b;
 0x2ca7217280f3cb8744c3c3824e46c6de85b654c41b19f4b662f8250f742041ea;
 0x1ae6ea2012fe1e87bca1988cefb126d63082cb3fa74a717b3008a4026a6eb28b;
 0x2d80fe550d7a4f7f67d2b170a430270679f03d119839d9ca72efbb9982dabfc4;
 0x137557593958b59bdbce0dc6594c99cb85c80f3e518e99179d8000b339492575;
 0x1def05089b4444afbf11ff8fb6e10259ee3b837fd0dd3d9be17595ecb5480c92;
 0x201b23b3cfb13fdb40deb239b3ece158fd8c67950c242ededb39540f9d71788a;
 0x22d9d27ccfb5d874defd155bdb5e0f9255e7be972f912c44ada9b7a2831116bd;
 0x239a279e55c2fd47d5872597cf2ce10ab41dba4cde5bf4cd7fd478342234b264;
 0x137724d6aa363143908f50d990be5f70794e6b9fe17beea4dcfea9dc0b6073c4;
 0x1dd6e3fde1b84a0b4a9fd1016d1c6d22fa80abedf000368d34d8c069be2fee72;
 0x2c94522857162e4e67bfbd495e823aed177c8a5d87d237fc57e5355b177e73c7;
 0x183022fedba6c78d0076bb2c2c6bb4722444fe77703e0a6f462dab5579dabded;
 0x2252e07ab4d0fcf8dcda2fd18514f0314282297cc99819dfcf0a5a9f35544430;
 0x719e632cee131b853c0824f527980bf00f18d8a16aa7f265480cd10ed3428fd;
 0x302441b28d3b1cf39dda7be9eced59f318c188274c6adec584737856495fd875;
 0x12692c7d7301e18bcff106c275cdd2dbc67001502b21aa890d6bd70e95a76934;
 0x1eada016794439b4d460b47956301225601ba9273266a9e955fd3e3c347aa7df;
 0x5cb3b0ddfcf2ea8552ef578139d19816d5c3ea7084f80c8cfcc43960ac2c980;
 0x13b78f0215ed7f48f40363ea5640fb9a41bfe6ff5044ad3aff51d755d9bcfb15;
 0x1b3a63d2f5d84163f48ff24f99ccba5ef05b29ca80019907e1c3a789296b22df;
 0x2cb13179d6e8a4ad1b9fec37376253cf64386ad905e240575fca86539b272dc6;
 0x2957ffc8d1b0a3f2dd026ad7b90fb7eeb555d3772d8f2c7f47e37e913a921fd5;
 0x2a1c6c7b345e260cbe11154aa6a062d87725bb940dfe9798e794d551306f75f1;
 0x300cad430463e7de043c54011a594b2e5aa9f0aaf6558a5194a68a3285bda986;
 0xab63cd76eadd01e944a13e73f2f03afffc11b4823380c6d0f653cf2966b1eaa;
 0x26227ae79cdec5b80aff802dbb9bf4e8659ae92bd8a83be6dcba8d5917c4d34f;
 0xf30d1719ff31c8ac2175e5fd863b5b04516809e3c7ac6ec41a1a53d866a71e;
 0x11c786871cc25ea48df5ad070b2fd3969a4841f05885a80028d910b7b6e6eab2;
 0x2c7a714da7b75d6bb3eb16b8d1599f3729105bae675a1924f43c3239f9c1335b;
 0x24b7026b296c245b47ddbc1e44492034c4b7a8d35b2887cd539513c5d0532403;
 0x2c247c7290fbeec55bc8593b0f859b43451002df189238934b16bf1a20d3624a;
 0xb94893f2502d38fdb691bfd23b211fac95d934cf913f4c52eac9999fc059e6d;
 0x79b6b8524b8270e480562beac696afed88406015d4419a8ff123329050dd3b2;
 0x27e2e1708fc82a7868b3a0fabf059d164ed3dc38f0e6220534928b1cdf59e26c;
 0x3040afbc8482759cedf03abb41a1ee858cdf563190eecfb2a24424d4964911b5;
 0x1741752784ea1fc7304aca0447b2878de168c87b78e2c3ec32d6805b4d2a41e3;
 0x13445ec326f4aefaa2a84547767b65d8884679aeddb391598b219ae7ffd41830;
 0x2b23df120933a79eb1feea325a521ba5d53372e29d279a8c32dec33a83dceac5;
 0x2c6adf68e43f02f6721d9fd6d19e8934ce3a462ec543ff34210e828239177789;
 0x2e9faaed5c26fecc4672723370623d6f563537c06d1e98292134f4ae26f1cae;
 0x22c261e0c7bdfb933e808382fd75da681f46d90e703407326630768407e0c27;
 0x15605ce70aa2918973c4bff136303580b51fb071d5224a1732c10424b1fc7a82;
 0x21ecd0341474c3b4ce81101d267ca95d7cd2647fa4bfbc823956a9e348ddb877;
 0x2cb13179d6e8a4ad1b9fec37376253cf64386ad905e240575fca86539b272dc6;
 0x2932e8876d985ea09549df2c64e8097d85c3578aa46adf5eafac039999835c5;
 0x2c1bf660a1dc8b26995b0e78875b0c28de9ef7b591fa2bc01a15ce7729b9ac5b;
 0x1e88f3c4efa334fa5bf313a919c4de396bde82e124f0002f1c00229f8dbcb67b;
 0xc774d6acb4fcc45b139d92323da82304fc4e29a919c9468746dd20a6e03fced;
 0x17c11174c9104e2ea1a374b75bea6925ec45a1d9e5293741944e5359d4d34408;
 0x221f6d3412048020aa832d764a5b5e80af3b014139b28f06920cd3a3d3c7b7b3;
 0x2c0b403d133861410859b48131001ac956fe4c9e5a368d9c3f085560e5d37699;
 0x1da9a5cdcc8d5c8e8390afe24b8d801bb87b9fb9eed429aae52aba17570c9d03;
 0xc3e382527280ac6525b3922388b310dc9864d9fd11815a2c94f7378f3d52f53;
 0x2e733c656ab7308a5f77b1747c7c7562f0b48d9bc42b4c1392632840dc67eb83;
 0x5500ca3eb4bd08bd91997d4fc698fa050d5d80d881f634f84feaaac57b15b2d;
 0x112aac301ad5ced619c2925c297d3387bd0690d0972aa21f88d7437f42bb5cf9;
 0x273c9c5526da6130164e2360c9cf111e2a1fb2b5f02a5a463c6c64d55a6c4760;
 0x5b30e5e7b01d8730fd549eef232bd3824b3a670604ccfa2407f2a63eab5f5f2;
 0x26e905c3889e46597070e8b67d4ac9ed44f5a89d59efec7add002494da376c6c;
 0x3a4bd09500b265238ee8fe2cc149e058d35559d4af804be07119815b5b98960;
 0x301e86bf4790028b674b2497deb4370f32b2410defc6a4f3ef6e500a0f29827d;
 0x86d71db143455444d99b9993964b827cadf4feafebddcf019c278f32c8114f5;
 0x174ef177c132d7a3e91f02639d7dd88248435018525f095ef18cb846bb060e62;
 0x57af114d2416184735fcff06d88e734f7d8d5dd412b7c407bb3a0f09bc2d44b;
 0x2cd21076d55f5c9c8c3c3afbf7f0eb2faf05ff80d267eb692d93b8400c9b5fd6;
 0x1ab2f05ede0b3e9790517712ef714568d570da3a0833f8e8317c1644264ce97e;
 0x2cb13179d6e8a4ad1b9fec37376253cf64386ad905e240575fca86539b272dc6;
 0x134ff00b65e9a214f19212b4750781ba3dd2e28511f61cda7a69553bafb44dc7;
 0x144774a605bb8a7d11b2f8fbc2a0d05146812a9f1d03c4be608a544d18ad8f6d;
 0x2f1de3b0835804059ddeb1d93bbb9821f6e2070365ff34da2c43dff65d3edf8d;
 0x930a41a901ddf9dc66d27b2238016500aec43b06bac6e7113beaff39df69c74;
 0x5ea98895839deeb637c0693c60994afe4950a088d1005946b20c25f48b1f4a9;
 0x2b2ad0eb96fe5e5ca0062109b8c535d32ba984e38547f3d1050b72526884e14c;
 0xea3a0fc0b46da189a9dca213c0288e3369573fa66b3d3379ae56df2a25262f8;
 0x272ea64f54ab3526e4679a0d0982560233af7b7f2e85147a86298fe62afb073a;
 0x281aa6e665287f9540fb2f6d13a077d52e145ed62b38c64899b92a123357c089;
 0x2a432fcc6ed2fce50bf214a31f9546baa2fe8fb3d1d00145a7fca7482ae2c390;
 0xa9809138f12435ad1150f8fc74d401d992c42439a44ebd122991bece3824ed3;
 0x109adc1cf8528ec8f537cfe978e320e2a4027abba83a3781aee0b88444805154;
 0x979b7716c8be6bc4091a376ffd1fc1313e19f3266095bc753da2cd4df883ed2;
 0x163c946685c585d46b6eb8a3edaf018353549856ff6ec0a238f45a1f0d593af1;
 0xd3d1890201c5bb1a7e40dd5575b4267fad63ae91f429efc5f57f52f498f4203;
 0x1f4adf58a1ca1586815ac26a76d8d6a25c313e9b2b0ac7f830e6e1e0cee2dcc8;
 0x2916cd6ca0ee56ce79345046ce1a91a231895fe24628a840852474b240b53459;
 0x1390ae730e0297f1c7ef2e27b3c050d6713015a40370d6a281f1c985dbfe86f9;
 0x2b747562e4956de74f4b115e082bd95c00a7e2a175255c7ebef7cdc70598de11;
 0x26d57a5bdf2b1da9eda88e856c4909c4265ea86d8b7f630caf123aac328e0207;
 0x24410235e3faacc2da4215b96ccc5228faf00709dac6542f589409ee5d833901;
 0x2bb0d85f9daad9891a6ca76117c5912a19e2b959f03e59ac52ca61c6fc90bf32;
 0x2cb13179d6e8a4ad1b9fec37376253cf64386ad905e240575fca86539b272dc6;
 0x1c53d25cc30ee67b9ca5de92e574ae8e006378568883a35ec673078c5cffffa3;
 0x15809370254e24135947fa4d4c9bb5366a809244c42e44d58ad51041ee0ac0a1;
 0x1c7feb95c74dfad69a598a6569b5544b3138c293c78957c281e16178dd4d2ffc;
 0x7160482689f59cfff868ce436b6135ce5b8d2e15aeddfad236cbbd174fceae6;
 0x1e1716d8a49f0c324485bc3adc0f6a47ca4d7921e079fec272d79aa4d4f5036b;
 0x2234e7ce1e40056deb62ede7b86c7f6482f7a253ce49aa78aa5c636a5f0f942a;
 0x1134d89c4cc64ecb35202fc26b51689c745b812587ea60ae3e2636908b428a0e;
 0x13c6c021a7904ddd8cbf3d0a7db61e044403812726e369bdb97ca31cd05142a4;
 0x1c750f568881fa07bd9d06cf2c36356c5b824b71bf2060b763fb2895667b54af;
 0x8170199a5b260bcb05638100428def3df9efdb5233441d14fc219c1bcfb0a7a;
 0x1c0bf7af434ae20e594924e912515bbe260e21afd030f32eb7b0bf5cddbfb1e0;
 0x1217414da7ee96629d16d8d7b906df0c15bb7bd5bfa5595974714aed8b3de96b;
 0x19bcebdd18dd8cd827850f36a3f6849dc028bffcc10fd5864c0e37c50156964c;
 0x67a8b7fce532eaaf198ef0fd1126b45f7d0aa8645e35b0331d7eefdc9c7b364;
 0x2a92c17b2ba923484475d4bbf164caa1a8f16523b6a23b2dba260d7178530eae;
 0x21bad2c773c7b349b2930be09781138a061c06f4f06fc38e71332b942ff2939f;
 0x28d0786689c5a9bc8c7f2eb62f2fd0b21d776f3cd74725c0bc2aeec801048801;
 0x222cc9d34695b0088ad166a5defde21377627fdd32b789575085363d6d5ef907;
 0x2a54d465647c8ac5df86ec2bac782e9aa560977f7fb60b87ccf3cde01e40ac60;
 0x13822f37a288f99d881dd1e6f6df9a8ffff482f84179be0924e7768d678a2a90;
 0x1792175406aa3a9e7056233f4a70042e8226c943b7aba99805727ff7a9565071;
 0x80bc46879014fd6b55a3e4d7698925b2a6710b7a5478a51292964f64de1d762;
 0x2cb13179d6e8a4ad1b9fec37376253cf64386ad905e240575fca86539b272dc6;
 0x8aeebda8fdf99667caaa1b7f570e579375edf7fb6438af9b689bfc12e2c8ba3;
 0x4b0ff272995a13fede7f4465a2f0ad2134efef55626e1824c08ed67ad981bd7;
 0x63c3f451fb64fd5e95d21c8eab8fb98523a716c8f83e0f764b41a8e731daeae;
 0x1928de8cc64d6cf21107045a7fcc4e0cba4706e68cfe779044583f2aaf6e885d;
 0x1ef2ec873dca7eb1092b1835b74cdb403726d8fab6cbef50b231df9ab87ce725;
 0xae02db0ea401b8a1c747f50e885d087eea93fb3037870bd36b1440d88995031;
 0xcb7ba6cb4e056aeb2bde61a38521aeadd877772701fa572fc77915050db758b;
 0x18e89e7317025644f8043265ce00d61382467265fa055598066b9b19b47653f6;
 0x167a003eddaa7d10f96e547b66cc2bd9f2ca99d267e011fc69669f71d0b71fbb;
 0x573cbb272daa570f35256fd3826e34c3e2f35f300adea697a306f914db7a584;
 0x7fc9b6fdf58ee181a0141cff89e34513e7b4d61e01786c176dca84b9664eaa1;
 0x2b3af74c7a1c0f396429f7e2d70e68b014b3a268d92897330cb9fdb1615674c6;
 0x22580eb83a854a817e4277e8cf1a05f663d198c0b2b6458fa4cc45120b48883c;
 0xc03a653e7e2061d62e638a0931b767a550722b318ebfc8bd924b22c8a009b40;
 0x1f0f1d34546815b4410f8ddf67bec129e8ae08fe617497a70e85b80802e0557b;
 0x1dc998a827321537333b22cdf7bcf0a5fd9a72cf9ed9d9e05ca82df4105c02f3;
 0x21305fbed36a0b611ccd7139a48b7d36985041687c4b76483eef93d98e28debe;
 0x19caf75550855e1b4d0e580444a73db1d86d507b72031d11925f33fbcf7e9f10;
 0xfdea1098aa89298d72ddfdc5a47c8f9141955ff5a612b4c52ad3ea0461f3df7;
 0x15e15542d8176284cb1b007f4655236b1f6795f045634ec815fbb5f842bb3c64;
 0x24b51f84f0737f35c038d3801de3102fc32dbe223491c5367af7baca0e933482;
 0x22231a672bfb82faf7b867475382c2fc174937b53ce765f4b6fb9737177a0ecb;
 0x2cb13179d6e8a4ad1b9fec37376253cf64386ad905e240575fca86539b272dc6;
 0x2020cec5cf125567b97756ed7174259dec539b4c40bba51bb64779221b4bca9d;
 0x16b7ffb1a4af4b1dae8d82824c542e81b7380efebf3183208dd87f3368f2cd73;
 0x29474e7fba2de80bedfa9f2f8bcaa38e6b154ba2da3454fd1436fd5bacaf2bf0;
 0x29f55a4fd3170647fad71cf38c80c4cf8af0b1039acbd193732ff1bdcb049368;
 0x2383d1015508e17fa9ff282c175ea5ed655f74bd5793bae4700459b5600cceed;
 0xb21347d3f2e1ed0ed02262545a6aeb4209b1809b132f7f1036af67f9ecc114a;
 0x1c3b4d79046a0030b73e4ed03746ef2898778560012f14b8c151f4166e0c9cfe;
 0x2bbdcab9bc95ec1509f2aec2af8b117c34d8d8079173cc099e658c863088aad5;
 0x32c3e39a7299f29c816d761fbc2abda28743e917547eea1eeaa75975b22b7cd;
 0x2402ee3c6cfac01e1fb6551c34b1591e2b419d4ec69a0a9f1331cb546c31dfb1;
 0xffbdb63b86161ab9648a7bb7e5c25d1541847070efa58c6240937eabd05acd;
 0x2dd50132157285954cbfc6ec6f2e73b0d1218c699a07fb09984690d0fc8719bc;
 0x116fcfd48ab31fc4b622f442566be132d688edf27d5337fd8afb80932769151c;
 0x2c3c7ae7989bf23c86279e146798a3ecdd80898acbb6c2ec1f716eb7a91b017b;
 0x2b7e60fcbeef2020823e799448da1cb0b866d776c8f74c031de2f5452010186c;
 0x2b4a3e4a2db9c0cba63a23100fe5b9ad29b63e1e004b40a16fc00e20a83b7d0b;
 0xd1527b252bfd505f375cf86b9fc95dc55fe1ca65dcf37409ec48da8b1207735;
 0x1b0a396a158fa717511114766ffadeafc6cd82b72390aa908e1c5b496eaa2ed;
 0x25b7181ae26411c1705d3adb389716b615f7c1bb3051ab9b9af4df76cca672a5;
 0x1ce6e261ad4d6353538814957c5184ff343521f18ed1e8ac24dd380978f1b1ff;
 0x2114b703153c05d8a458b86daacb8a1180a0e0e06313c69f0319885218d57254;
 0xbba93da8fd45f0232aac88e242f83553799a5dd893a27697169d9ff3f628dbf;
 0x2cb13179d6e8a4ad1b9fec37376253cf64386ad905e240575fca86539b272dc6;
 0x234620365d9e508d8b7a01a20c8b84cfe78734bdd7a480a6f3c0270be6c9e031;
 0x18773402938384bdcf3ed2931a34af760d3401e10cca02854081209ca5bf9c71;
 0x12f489609e827ee3dd6a53036f1f8fb80243c0ba7ac2720ed6997504f7f50d3e;
 0x98af099212892af46e34cedbb21e88b9184ab2fccb8b8665a5324601d8c5909;
 0x229c5955c3b6f26373956d4e3ddbce6c4c97dbd1382ed1c141c6c6b8cbcfa95f;
 0x204c3dd1c157600ceb1cb55072ee278292a3003a7777febb080a33168f4fd9f6;
 0xfe2cb3ac38a35f9d943e20a4cd370598e5c1b128edfb9cb877f2d424cba56a7;
 0x2ae0af8492610bc178f36cf8887b6bc86f02da15b1dffb674706df0d9b62e9ee;
 0x1ed1520997dc0364683540a32fe3e4368385d140b61b09672ff0e0bc2b398115;
 0x25a0c2f522b7f27667a93c435c2bdc67d575da8a808bfdf2a43558b1eb12d9fd;
 0x24d9bf46734bea252329879adfb65782fa5c6809a1520a3656d7f67331348d3e;
 0x2b5277817669cc8df0c6b82feb1587ed59210f1414ae609f40def4c314d96e05;
 0x724f33acc2c20822fe7f8d3d1f0ac39b2fa1025dc18dccaa4b258a2654e705b;
 0x173f609ce483747dc7ead26598dd2227107af0521fcaac5efc2bdc3f48c07c99;
 0xcf0b2b3f0ab40d718173aad7993e6213ee48804e3e563f0e531e2c937abdf9e;
 0x17ce34f45aafd638238ac5846997636b58aa04d76b4b0bb46aa0cd078ae14f8d;
 0xaf51c9e93fa5991104504bba90149228d64eece560e4c8bc2ccf1b943cfa761;
 0x67a323bab4f3d03df325818a393ba5dfabd66405cf74e65e9dd52ee2d8fb197;
 0xc3d3445a27d7a042fa2b4c5e2b5d03c1332d38bf26a781449325896df57ebaf;
 0x1b5b3c710b37f195824a623712b2104d821ec8d859940bf0d27a3c50faa2e886;
 0x16fbcb1c414031ba771845e6f67151fa983a4e32972031ef813e5f43ff3a8cb7;
 0x2dbb1e93d3cdcff3ec3bb01debd9211951fab454e9a019fa4658a98f148cc8ff;
 0x2cb13179d6e8a4ad1b9fec37376253cf64386ad905e240575fca86539b272dc6;
 0x1f580786a86e622d9ea1bfd87c2d7a3a5f19f25105f0247f08b0e1ed89bd9dbb;
 0xe2debc6417cbce9356f75fb55b7ef0347205dfb84b5b0de2c02f4e130453c16;
 0x286b399e2ca189612a8d7dbbe938a61a273025779047f72ac5fc902847dfc0fd;
 0x13144b54692e577de4598ca0783dde7af2a3a81cc5f0030b6c3bd92d3bf76dee;
 0xaf7247e59389d0f9509b168845f46a72b4474d9ef66dd7e35f58450fdafe9ab;
 0x18b3c1a2e20476cef58aeb4b8ec1820d80c28a5309d85f974fa62a19d262f5b9;
 0x22d6ca5d958faf4940b74e3f50fe6eef888799302c7c99399331a9db0a9dde32;
 0x28ebcdb416210c7ea0a9c44cdcc1763bfeed08267cc7a17a935f0e75dd6beb6b;
 0x264522a85698bf1cd24c21e937f975faa4cbfb3534cdbaff55a89a17f947aedd;
 0x170ca38dff04f179223dcbf96e15609225436e47f6aad10c21059b549b8ace87;
 0x1980e8052c47daa2a7eceb160ba3cb93291acf7b84c3a1b83977766d78e7ca83;
 0x2ef55e77f32308739f0831d0a98f7a6961e4822e53027d86a46aa9c9ad39b64a;
 0x284ac526379b614a14c7ea0567aba7a459c269c32fd5af192240c11103a308c1;
 0x1d5a978ae2de2380a458d23f2c2c1f7bc1791d4fbeb38b6c7a356b6f033e6dc9;
 0x1fdd8752355eee4ecb1e8924b6541942da0c3f56e2f6c12e2ab75eebfcd1bd98;
 0x274b47507df843c5fd2f4c823c4c22057b76336affc6631035f28e57f6a6d387;
 0x2d46b1ea87a9f2ed6d8665f43aa1b4f6fe399bed08d9c77bd98e82350be3f379;
 0x21e50a36ee2e6ed562fd73013bb2d34724b4ef34525c51931610076b81d49eca;
 0x2f0a7fda21c19ae55233db913f1dd886bf71e9a0fe12f425d479f462f1cf4b06;
 0x2dc7e716c1b4d182cdb078f38ee7148f0ff45a65f7f6360a66d6a29fe78172a4;
 0xa24d8de1362fe9f8f23609dee59bbb4230f39236e6729ffdd95bedcf8f404dd;
 0x2b1c087ce01523c9e0f97d81c67a77014e6f791a656f8edca33133fe9206bbbf;
 0x2cb13179d6e8a4ad1b9fec37376253cf64386ad905e240575fca86539b272dc6;
 0x243ab6d29d356d147b7915a7a11f6ef485a0f3ef8d003ac239c0a926df820271;
 0x10f0ea299cfd16da7c54cf4315a4bf993f6c8ed21e1f1b629258655bb569f3b4;
 0x1057e97ac983fedfa508de5e9055c24629b7faa279f1e483a2927e621a45a16f;
 0x13ecb96925a985173e792bcadd76dbf62657e8aee6e732e1fef9ceb1d86688be;
 0xe6f9b2c64d9d97e1dcd59691a2944c4e610f2c9361a93284853c335ef448b93;
 0xf5130dfaac7698c83247ab7d37384c6f4fdea4c423691dbc0466cc847d22240;
 0x719c66d510d88d51a80f22c9ee06cab506ed395847532f0b0aef79e94ff5c37;
 0x19fe7de3a53de3d0cbfbbe226c6d9799cac73c343bb7f652246d3314de2cd748;
 0x1fb5113860f9c3717742da8ac8dc02d3d750447ae00236789ac400ab7b0a4a5a;
 0x28637c9718b8c1053ac27e6ccb68a14daced5c24c3932460d23aa40fe066611f;
 0x1049f5f885c559fe26f7d811c660cc9c6ffdb5103dd3217111b99808a28a10ca;
 0x11ec2b02d176c222bc479f6fba4e427738b96aca1b7c3aa11db89b27ae10f0e3;
 0x194af56781953f69e1b00c8040eae1bd59b4861dfbb3969d8161d77552233c16;
 0xe752eda03c9dc685060d7d0625d4882ee9ccf2748929286db03f0a453d8c21c;
 0x1440c319ce47daf613542b6085053ac22ace7246863f49df6488292e7bc72a2c;
 0x10cd79d6139155e4208ddc71ac9646aeb4ac61a3eadfaf337ff97ed9109e0971;
 0x2ef23590604b7f057aaa0583333f5766d25a43366d99ab87f9e290600b3f749;
 0x2ef2c45fc47b175cb8c6e23c2cd7d26332ee65470759893d167772f18b799f97;
 0x1e769953c74901e1cd39e0a9d7ea12db105fa2a0c3fe40cbe36965e11152482c;
 0x2713a7060c9901b904ee4efd31cbe1bb0ac6efee3756d59392e8b594db57a617;
 0x15b3bc638f4556ac765e5c60678b18ecc5a7aac5bcabef247da9cf116cf4249a;
 0x1df44e6b43f51e3a708b7b6f7a05c67e7817d8fe6f36e357e266265e3183535d;
 0x2cb13179d6e8a4ad1b9fec37376253cf64386ad905e240575fca86539b272dc6;
 0xda3ee283edb0e4256891ac9f4166ba14c17436c1ff8b6870f6dea7962f36c3c;
 0x2eed5fb764a1fa6cd387d19322790c87a6b6a0b13f832f24f0fa54f36aadc0d5;
 0xcb9fce02c3f2f82704477407a46991cab311db6e12f14e388c2a4b6093de75a;
 0x2eeba73653edce41cef62722997e5df9d2f76d799cf112d29bb5706a6eadad08;
 0x4318c41475504dce0c6bbd1e76fed829f7c8a71f1b02f45eedf5c3a71e63909;
 0x2a094657153ecc1710c0583c1c3b7e7966e67057c8faedd408e505127a78605e;
 0xf40aee2532a088cda6d1b13c48569022dea6023f85231a5544a9e6cc4edcce2;
 0xd97ae723214277576911235bc25ed81063fcd21b59e6279275f11f57c054459;
 0x82f1e5e8e5087c1aefd0f4fc62167bca4b73b8009e3a67e07cefaef1e475cee;
 0x284f24d43d09bf31c1b59d84a8f2ffd8b1b903a2b88827fba8b02468ff57a971;
 0x2b6538eb36991fc2429f8c38483f7d4ae728b7e105b4ac6bb449258eb89d3aa8;
 0x82e7991093e92b53c575b9f51f8bb8d1d2a405bb94359544a3106e033b3f2a4;
 0x288593b3cdd201b3f6ee7d9ff217e0badc9dde2bb6ca2a63359ceca59ed12d81;
 0x2762b0c05f66a7d3a2c4b46f6da9e207194c32a91a15d0c8c7a8601874649bd0;
 0x20851ccb233ef814435570f9435eaf7cd22baf2a89720b4b09d035dd42d0305;
 0x1e17e4ac7afb5980903d9faaa355d2d4bc00f661cea435cd563a0c08d89f52d7;
 0x11c64762f6e40528ef5f60c4905cd442e137348737ff11ef9fe186e85d88cc81;
 0x135a7893f0df31bdb093e2f1936efde3bf6c80cded53bbf23842d5cfa739c10d;
 0x670c942b19efe0e24ae667f88cf25482988d4fd289852b59c7400bb291fd22a;
 0x2feb899196016827ef03dffaae29bd9f7df66f312f728ac0398d2be90a10c46d;
 0x23bb8acfb809bdb5ed2b2306e5870465cd881e8517cf8d60b6eacb23993ec19d;
 0xa2f66d3d56165a8357ad4ede386e8bd3d2c1a6a51ec4a928d02aa9cf2c94025;
 0x2cb13179d6e8a4ad1b9fec37376253cf64386ad905e240575fca86539b272dc6;
 0x2621d53d90f51a97a82455d448359f1f876b08ee77917e55298b4a4f7f2c80c3;
 0x2e1713aa13a1ed2a7b57ece72d5599b6e239d5fa53866e407444290254f10515;
 0xb0e3135b9a9bb3900a312bce8cbfaa6bf7176bf09974e9224d63f81eeb9cdde;
 0x1b37ec261be552d7f9cacbdc0d0f22ebefd7c123cdcd54a0b493db30a65359fd;
 0x100051565c2e4d9fed118b55fbef6f060608dfe4555e486a44e6971696042dd1;
 0x298819bac61778b218142e4fb26533f0ab1f8f40c8d8070fe2f1d4170d93c58b;
 0x2cbb90e508952c4b5ed26079f85f11f3bd728140e3b8cb91c1da9152c8a82560;
 0x18e9de503cef0ae3f8901d7d9004170e4661e3792b464e8d7e1a7c7f8bb17091;
 0x240a6c59aa72438261cb26070ca93ef35db217770a207e7cd9af3a4df60768af;
 0x1c5c0274172befaeca201df876ee39b582fa848a0bc9454f6834b073c4ed7f73;
 0x1dd2fcb227876523c5d075aeaad2df556ca76939be98462768f94940ca73028d;
 0x1e0ebffd9567e4222b322bd16275af85e3a09c6db8f053a7027827bcfba8a0ce;
 0x549e3fd2d8b4c8f5e1f6e5ada4adc3125ece6af1041e4f297d14cc80bd7a865;
 0xa43a7e3ba83061b5379f61580f17fdb5068f57a18cf3d8f4431ef14a7fd8bbd;
 0x2a8c713fa0bf5e002dbde544aff988ed8b347afe2b3641a08eab979bddd4d2c9;
 0x307b423ad05a7c6c5a7feac041de1c236cf3db8e0da46368ab0a5113dcfd4d0;
 0x1202dca5513d8609b3e911ffc3c1f8da4138f56287f2837bc1f8820469bd5839;
 0xa109d2e7176796406f7fc25caf837f5c8d2306962baca62457fd49673b0e48d;
 0x2158fe72a1672fc1b0aeb56bdeceff410de2a404c9f4d7a2e39c4cf0800264d3;
 0x5e83a4f3ed30f863a148e66c1771a4634ed52e73dc1f9c35e479744dacb7c2e;
 0x15146f0169d0dcb2e678a62443c00442cc342091a6d18a293a17882adaf6f146;
 0xe27f3790482529695293a0defd1f44495f0adae815cdee0d3ce9f91512c1be5;
 0x2cb13179d6e8a4ad1b9fec37376253cf64386ad905e240575fca86539b272dc6;
 0x216bf6d0d240ce8a0b430f85259b74084cf9f998823dbf13091042a32b4ea56a;
 0x177227662dcc7ef354ef41fdb3f234ad93e7b70a6550e09be2c947ea462597b0;
 0x1864bb94cc95e4e33b7673809909ee3a156c892cea648f047f2864db12278e4a;
 0x2eba9c8ba56d6b800654a1e805d403bbaf22af7ff1aad92ab7cf420c129a2616;
 0x24133306f286c04d2c2e174c0cce34c64c21f81e0df67c2593de5b422dc1eb20;
 0xa1aeba71ae73f2846cbd57f9dda3c3e24b82291d22108a6a05a9c06e002b8d5;
 0xd2d0af3b16bd738a5e01bb7af549f842a2a9f847063845d36d7424e1d2bfeac;
 0x8e4a4d4fb97473cfd880c9285028c2883d6d08164ae7db26e6900b532e848d5;
 0x2b2ae02b9d6d53220998acbb749c29f4476c9f2cd34b74c66e4f2c4abaab6520;
 0x1fd0ca0b29e63609c2f6a3150ef62616a5fe2160266382030e48b29806298756;
 0x11e7f1f91826d815902e2d9d79e027c44e78197f4450cbf14128d704c2dd46d7;
 0x25ae141d31ff22370a99693adb350858a307e1fcfb60fe175a3279d99879e2dc;
 0x13047c24823af0bdf17ccaeda371552e8834990abeb7ee7a9a646aa7bb9f4753;
 0x266358e11e5081dc2944990007644733445e90ddab20cd50912c06cf1388e92a;
 0x1247a2077d577a1ef6f0aefe8a7a2df21828f69c44bb89b6ae70fe9c3ee1af91;
 0x2c338524f33f321e6f2e5e420edd47f14caca5bfdb7d3e065073b7b20d2814fc;
 0x2ced7c9cfc6cb9727179bfeaf0ffc028a759aa44e97257f72c3467f9a0974c26;
 0xe633982a359333b017dc5b4e683bfa274e74153f4f99d639e48de02fe239c9c;
 0x2ea0bf1ed70f15fc196a395ac836e6a579d4923fd13be32b1416d351a05afaf6;
 0x238f38e3b7a1d517e00c666c6670c099cd2bd7d8418c55facd6e511ea37c64e0;
 0x2da765692bbfefabcaeb0dab3ee18797ec0032c1feb257983ce753a8f286a75a;
 0x2cab9bc1d925ca3f6473d56a4c57ec136f52fcf02c9ee0e25ad07fe24dc281d1;
 0x2cb13179d6e8a4ad1b9fec37376253cf64386ad905e240575fca86539b272dc6;
 0x1210303a7705212e81f926482699c6d6b6aa13ba342f4576c873ce976435efe;
 0x2e1fe52ad49d5b2cf4c43c7fd551fd05bb0cad132226c92b47e4bd24bde2852b;
 0x16e6198e30d06c12d5535709100d47d0ab174704e4953b696bdcb8318c78d80f;
 0x11087fc4daf5c010f9ea8b66e2f01e9032597965c811afb9ca9c7004e01a7eb8;
 0x268cc3c909fbb19b2d737b0feb4aaafd6a2c0f0da4f6b391ead88673c187e8bd;
 0x1200152bacfbb5e21565b19d0e6b47ae2714cf2bd9ae7038fe9132879d4b4688;
 0x28db252e756f0ffa83fd845fa7d06ebaa301d37edf474a3b71f60539a630f59b;
 0x184e95906f85e4e36b0b77e9d862fc27a56ec38c3178f8904851700c703c9db5;
 0x14d66e67decb7a7f74926f2d5ec6497b965b4de941bddbd77371a3da470e5d96;
 0x12a5b346904fd63b6c52f603e8a0c351d2284ec345e50518492ba935b07ba7b9;
 0x269094e291d79246bb735d3c4a3df2ec9fb60a6b2f2340e63c91cc6d5dfb083b;
 0x13929b4087a818cd5f602ee40afecbc30ad8ecb2b7677530094d09309808ece0;
 0x14f878c52f6d09cc1b32f3ceb6f2459a5fd6668860b945b74457d819a6d18757;
 0x2d91fc38379e50d8addc35fdfb88d27e100837e513f329afc4fc9cbc6fa0140a;
 0x27b4dd2629f029c1ec11bb5f235252371947313993a0111e4f5cd14d47b505b8;
 0xfcf71b4f58f1e845394800f32015de09e4107ce8a7bc786810e3cabb67d5d5e;
 0xdb4f212a8d9f8036174d995937618dc8074ca32f5ca1bb537fbab6898dc679c;
 0xfa6cd0c9a74c1973656d44ae21323b5d29ee26065906f0747bc3364d9fa8ff9;
 0x2f5d612a89e3ff0157b8c05eb81cdb030b3aa80728ee5f2b484e027e9d7b587;
 0x12bc2f8ea309d0aae7cf1fd15767dbe97c288b2d72e1ea489a383169d7e5cf07;
 0x20e5a78984a6e437e16aafd2e43f119233b4bb35cfb628aebcca0ab3b102b4c5;
 0x155ec9570cd3e503fc1c73fabd38c4ae24d31e5a38bc56c992b5817c9a58c18d;
 0x2cb13179d6e8a4ad1b9fec37376253cf64386ad905e240575fca86539b272dc6;
 0x6a4859991b82108283b6091195b9244714a1997a97833c55c4e15c00747f5fa;
 0x1a17c910b931d2fa7fbf8d41a1ce86a3496148f0a62cbb541a94310c3bb931d6;
 0x13c27123ab15ac6f964022f94aefaa51f07391afc1095d7480acffec7e9cd6e1;
 0x171c742bb0ca2a0282f5fd7628191e6ccaf3e32c38305a00f6593b4fd7527f9d;
 0x16cf4b06cbdd21c5afd1ec787847f6956fc45cec34e95739af5ca67c27da7729;
 0x11e51d4503b1aedbfe993befc9c8078b70d4db75556da4942846d22f217dc694;
 0x8afd62076c7f946b4dd61967b32a6d09e794888c2702acfacead811a4fb4846;
 0x4158c5f8f1b10efa12aab63546ffc8f065ade0bb494a31a58391c41f62fa841;
 0x2f87837b6f5f2807659ec7565173893f91a4ac26b6c2e26e22d09a417309dd32;
 0x7c728d2e8d95bc8842ddf8db4c76412aefae425c2774ebdba4317ea783345f5;
 0x1455d8963d76e99083c896bf0f68f63db992b86a913f3b123a98889fd61a3b0d;
 0x8b4bf22aa0e03b5f857a51c0e04b64565f59c87efb6859f8c7169dec09e2841;
 0xed823b8b9d0f2e0b0c6aaaf3e5621308414d4be94ca3ccbc6c8aa0ce8e1b4b9;
 0x1642b64b6547c137ea9d16920d1d4273ec49148369a457cd28f73cd9098ee6a2;
 0xc9d91924e007af49ba20f16356373ae9cdd408bda9255583e41c1079c5c06ba;
 0x2f1518b8bcf463362e1e927f733dedbe8817de8dff121a6a5527b33e70778ce5;
 0x2114e089d96c5a4b64b2a6ad154fc6880bcad9eb3e8cd1d3ef980efda445281;
 0x1abc25ed5c0fae93b3813bd8fda0cf773df41cced07a8ab762fb36b6564922f7;
 0x2a5eddd216f0eadc4c50a2618f44a4dffd68ec6af8f7c0bce1a45894e6cbc010;
 0x75e0d34b920790fbbd21418ecb62663464bcfa06db3581dbec635c8cf864ec9;
 0x27b7beb430a31d0967dd287dea9fe9d0a16def46efb5518aba65fa025d82579b;
 0x270bcb008b10d32d8b92753219422002494e30327ee71b2379b09d5a8e519b9a;
 0x2cb13179d6e8a4ad1b9fec37376253cf64386ad905e240575fca86539b272dc6;
 0x26c4a3b0ff9b7f29c97c01b4fdc65d8ed1a07717da9b297d3d2a855fda54bee0;
 0x2c6dfb52d9648d18f5ff9db4e213c6c94f2fb8151aeddd80a1cf95df1ab4862e;
 0x2f7b7e795fd4f392f9810877d44523a6fd9ca59bf9f6f15502f4449b6fda8c85;
 0x5722aaa2080e70ce91c67932130feac2c7ce93eff67e453c4a10c7923d8282b;
 0x305247769dc2fc18b8f32cff8b1a08ebe60b0ce5179bc0fef9e41893007050db;
 0x25c0007547961e0f368c5bd7bcd2335c7d35c1dcd4e04b169ea6676a2713ebf;
 0xaf75b019c88a07fb24d01cbbb2ea86e75ce904560f06eaabd617cc627ab0cec;
 0x4707e08232d55d9c5a37b7378d94cfd74933b1f483a6db89a7f7cc83d17a228;
 0x1cb2bc2b494b4a6f9e502992730dcc6b94aada6d0a04a350087b3c9866c448cc;
 0x292295bf6257bde873af036dd6932b623fea12bb31928bdfc800d1a6bdb7dc5f;
 0x235b612e67013ebf3b74fa41157682a4169a17315695f54c73f290afc4574a3a;
 0x1f412dc0da42db6a648c19e9e9119b157483bdbc7ad3936efb9dcb3e72e12114;
 0x1402bde219d915bbc5f2958edd28a107072ce6cbf62346462754c21d6d5c9d16;
 0x265eef82382e05522d8c113ab42ab0b09da4c166e107b2fd0cfa47aaee5f4756;
 0x2b329efeaf663ff307ee9a682f883da59ea63242aacb620b61ef85c0110fde26;
 0x6004617ad663a46e41d79103d1de6e8364d2fa582271da3e8b39c01adc8aee2;
 0x1a10c1c3bdcd43ffa6ea4d58f408cd7d0e74a5ea38656a1b6fa88e2013025d55;
 0x9c705ca1ee96783e0530b69117d99337fa1aaf04c5fd26e5309c0118f4bdb32;
 0x978aa5435db1ee6896c737ba36d79120681758793e1a1d56718f6cde533dc5a;
 0x1934fc546cb215a23bef42d7124ceff70e1d469081c2cca343a9ebbcef1ffa60;
 0x1ea452043466f1c5d8f26fa48267014833214842b2d204fb253b97c9b3deed6a;
 0x876bcc65ef05f89d90f3a96070a57d48d6a2a09de2aaba161fd6b9e80cd6ccb;
 0x2cb13179d6e8a4ad1b9fec37376253cf64386ad905e240575fca86539b272dc6;
 0x1c9f9742d4bbbb6c9dec076b4b9c7ebec120c5740e04e3c62d0c786af006a303;
 0x18d9f9aee0ce3ea08d9164a5473ac114ae755c25b4f9566aee1c90d0a06e7029;
 0x22476bc02607cc745322595d63b98eb70db2782762e548e023837c9fb06021ac;
 0x22d83381d8f8800abdb2cced36e1c1d1c2f552594bfd9990abe06d0757eacae2;
 0x16382c1df41e7d0a3a4958656a42e3f1f314b21ff463c5f959b51d1a6c40118c;
 0x9e76815d09daa33a324f5d1d2404b3ee419b8e9b8833db59110c8d38f1373cf;
 0x1b0d5ae4cde6fed3fdef9312557d22f7da589e71e8712ba7d2986b4bdda6206d;
 0x2940f972586e13b6af08d49b838fbcdf24fb2a8a03f069ba612b0535ef94bf6e;
 0x19edcab2af3f18321eacf5fc4f3a933383d26aa37b1e3049d3c36c11c25f60e5;
 0x2deca7587b2175d50de4645fb5601b2599f5eb15ffdca763f0a24dd1dd4e735d;
 0x1f816bee20400357b01555222cbab8bdb2b5a6ff8aadc19f911042092e96a26a;
 0x2e950640b9cb8d14e70f81b06a9dbd4f5e01b81c448cedf2c2ea0b753d550e9e;
 0x6797a59fb805d4ccc041166d71d077763b50b1fac685126c84402f02f565179;
 0xad20de820c01db5e4c800abd15e3239b53a390d4a4a60348efc2dec244f81d8;
 0x174a6b87cea8f7dc3a7aea08317bcde182eb2aa39c927d46bb9b0dcd70954da3;
 0x2cdb547394356c92605c7b43aba9aeed3ec33a6ad515e55d8df4e678487186df;
 0x2d001f86169c7feec284389e39745c1a64345f978bdefa862e8c73f7fe610d98;
 0x2e40bd1d9e8c6b483f91eeea0e7f4f210aa786503d225e1fcf41166735737b44;
 0x149aa5d1015e9f2c509e36e547de312d41fa3d5d4a8062b05aacda70ea3923ce;
 0x284295e910196398945ebc9090400de8e5c509dd18ab3f4743a5eb521bda7d66;
 0x1a1f21bdf16296101dbcba94854f7c4b05d206a1d08b8796e6830077ddf99070;
 0x257f8d5e69aeed2ff7e194f398daf84d053941bfc75fea450fbca498389b2218;
 0x2cb13179d6e8a4ad1b9fec37376253cf64386ad905e240575fca86539b272dc6;
 0x215c6089e0a9a6256c901e33e306ac9c415abc1875a49add4de6d0429fde8234;
 0x2cbbb480fa68f33316f0d301f3cbcaa7eaea71e2784a0fabdccff2aeba9f718a;
 0x143619ab2212d1911a586be0f6acb6b8381e47b5a3e34b91eed83ff54937a34d;
 0x2385e3c9ae95a0459e974d29cf0e35f283144cb2ba13aa914b4e17ae5c988557;
 0x2bbe7e909fde4390a7cd944e0f309103447e91f3fad40b752733063fcea07054;
 0x24303758e4ea42a45a0419d88e426c95c68ca5811974c5b0c3abadd9c29d2b5;
 0x260bb40c5f1b22fb87dedda1706c608f78fde0e5b9735ad1fde63459244d4674;
 0x21f27302db4f5b28fe8845806f38ff1f0a04e28434a3e0043bcb57e65f6f75fc;
 0x16c95bed15dfc954a1a4ba25327ee14c5b0dcf76fd8dcc529027230e9c4a0d97;
 0x20996392773e30c8e64d792b010907d8848f28f691e8b2de13ea8226baea34d8;
 0xe20275c14333df445b794b515bd07b8bf90bd8035cf43cfd845976af63519a0;
 0x16422819af615c4a947afa3e272275b5d5bcd75d494042bdc81d84cec30f7f1a;
 0x16329eed1887886307c5a94706efe31795136ede8e9511bc42c77ffbdf22276f;
 0x1e9f59aa3535d598e32de9a4a370c6f4e5f8e6090a9efb2181560fea28519269;
 0x303df7dae20bb862e852232d75fb4f6468ab85a1d36472c3dcf567cbb233dbe;
 0x103c4294a67544648daeda2ec0a2bf81ec40e4c01d75d35be0a04fec32907b03;
 0xd9fb810fe920a795ae2c3dc1b9bac0ec25aa7df2e3628241ace688bbf78fa7a;
 0x235f2eded2c0024a03e1f050c1a32820b3c33f03445a830bd06bedc4654bd320;
 0x27fe4a10ee48d2ced432a47a2a6dd4083e4fdb9d9cf44ce4889b9c7d581ba529;
 0x5c97d4fec77f242636ebf0933f378eeb74467faab3477d6b8230966db1e9e56;
 0x17b0b7d570dc76bdbf3cf5d3def37e0a005c9b4e0b39803490c012b453ed60b7;
 0x4013b73ca35eb02837465c016ae8bd13994c335fa05de42835003ac53ce46c1;
 0x2cb13179d6e8a4ad1b9fec37376253cf64386ad905e240575fca86539b272dc6;
 0x4ed491d2af18388da53711df4d29318125bdaec68f9134c1b3f5e3bd7b831b9;
 0x16e1f43d878d2cfc40e58b5e77386d360cd3937828d8630ac2e736de89b0d118;
 0x45f7d97cd4d95f8e4e65c183869d4c15d354db95e5334ea1a5f3a0c34ad3bbb;
 0x242af80de0ae9607f5aad4250667e1cd450995afaa5293ceb1f184cc97ef25e2;
 0x2d149e6319f8dfea1e2c1893f5afd8325013eb9fe57e79b3655d626e748d931d;
 0x78a606fb0fae37d1e1a6fe99977001472cb272a670901f0da8e5126b3ef0899;
 0x1548a537c3810897af4f919f5e48b512eb727f3c47c53cd3ffcd5e3a559640df;
 0x1e3e9d29194598291365b7b7deff55f05a137b343cdb74c00037051b96cdc202;
 0x2ae46fd5b2a10a6908761a50c2f71e5f944abf11b568e0a070fb4a4cde0e9d74;
 0x1d5dbbfd82c2f3704059a5e3bf3db7b7f4dcfe27bde2786ea26063cd0921cd0a;
 0x221089932e5ffb0d72b8d896bb8243ce3d6adebcf7bae4ee56967e2b34a63946;
 0x2a5ba9e0c62d377751d13b5fcf5d8e7ba1087e74cf277212405440b3a8fa55ab;
 0x1ed96d07a94876906d0828524563f987414b2a45b4891092481659e053c7294c;
 0x1619ca922cd3654f97cba5f102327d7d6a0695bb3af22e94e33607f545c24641;
 0x93f881501a90112f530fd9185176fd85475f3427ec133cb5bccc6f277a16adb;
 0x2417824b008ac5a7e819ea42ac2e1bf2becb58661528bdc20ef63cea2e355a7d;
 0x1efb091123948573d0c0e6b95a628a617567971c5807c5d3e08bf566a3dc874a;
 0x1f2fc25f030934b6115600b1453820c4c70f8b454da461bc03cf773d033c0fe4;
 0x263a77c0aa2edd316947006fbbf4b3cebf660809da89166c7041c52169764b61;
 0x15d37f58a9589edadb9923907f947842ef6fb4b61251f8373b973dd422a1b940;
 0x76d6d847fcb997548c2b12beaa6a39876569f53e881ce861d85d9c41ce40820;
 0x1e220162696cbe1575cc2f4dd2fed5117c116d52a9965b434ddd7913272c5c6;
 0x2cb13179d6e8a4ad1b9fec37376253cf64386ad905e240575fca86539b272dc6;
 0x12eedc290453cd77c01e543e57d4d7ae0f6e7a76b576e880e852ea8b8e98bdc6;
 0xbdc3d78a5d0f3a92fd690b227d948ae6ca94d4342ece41593514efad7086439;
 0x2207296649856f043e2d7158f68f5b758b354cd022cfc04e811e1bbb4d3468d0;
 0x21430ade4c0144f819a79b2b6f849a968fb758f76a30f3e20b5f7999110f35f9;
 0x1a70bdca6f11701536dbe4d9926b6bea87a08f6f0efa754b1132dd4e123f7c0b;
 0x285d8e90abc1496915dfdb9e2a4c4d8c42126a3f15f4bcc1d8dc721fd813fae;
 0xe57676068d4b4e3a856f2cb7b22531f5e51bf1c6f09e35a645aa8953bc45ede;
 0x1053abdbffbfcdaabe5b794ee6bef5dfa367d198e7644962afc90f37590c025e;
 0x11660d7d44db731012b02f55c5a19e4b1a10041e0085aff26ff088797f54a057;
 0x2bbee9db0a412ba731979594cea45cdea2a1ea40c90bea1f3ace29d4df767920;
 0x119c59a67e312da970edca383f4e1cc1752e7fec6bde83e437acd6136e4dd63c;
 0x2a861198a0bdb354abc6d273b4f13854cd31d745e627c21ea107620242a8d233;
 0x1a8ac82f57894230abc7f3d010003d5914170d820095f3bbd01e977142351f12;
 0x3548b5e02d4f1f988144421ba37cf75fa0963b14c2ac961ac494828c1e655d0;
 0x2cfe3bafce8aea2bcb3c145ae29dedeb9ec7123b4f3295bfa5d05681c366709;
 0x274f38fbc034b51b94982df30832c69961d65637f808541c50a395c8e0dcd32f;
 0x1154c2e042ce659dfe447ef58e09e4514726945cc5abde427500fc5411a8a365;
 0x2b6203e305e19b7730ed2731f994303777fc1c2a52422d929ba6488c2c164c3;
 0x51917b944afa399ea1e621ee2ad62ea629a35d29387be06c077b79b9569e2aa;
 0x7cf3b4f4f274f711a4bba652eae5fcf6c950fcdaf92e77c118dddfb738d9ba7;
 0x1184568d03c28368300bf5724d6958355470e629221f5221676f69e22b717352;
 0x1857839c2d8b0d6d08c21279cb8a2cfe6138df1eaf6649888cf540965ab3c168;
 0x2cb13179d6e8a4ad1b9fec37376253cf64386ad905e240575fca86539b272dc6;
 0x26518ee75c590976af8e213b42e5988a7185438e593c9635a28ee89c60bac357;
 0x23645455ddb929ee2b596cabbd5f40df59e219b4efd8c1fcd4fcb67ae42bb5b9;
 0x16d0126c2df72ad69f419c74741165bf6e9f6c2abbe95a022efc903b62d25ebd;
 0x195050200adcbdb5e72bd63ed3e1d4d3d54e4cffe5a5fecd932e9c5684021dde;
 0x23c26b8f07749697bf6982f2e715c91f541b173fa0a3e8dfcb6bca01499134ce;
 0xffacbd7cec2233ce5a4b911dbcc61f87d759ba6e46780179e75f91ae5a720e9;
 0x231a2beac360f4917f433d7ea9eaf185e270778902e6e090ee5e207fbd0575a3;
 0x208cee18da850a2625d1500f835a216ecce022c8b08235c387b8cb1865ed8a59;
 0x2df938f310cedf2df8530cc3ea5ef1254ed966674bc08ab3f1ea148057b6c9;
 0x5cc71f44f496cfe8d69850022a141852f7dac001fdecce67de6265b69dde3ef;
 0x1e04cf375796f4714e6b51552107036d16f71fd0b77e357b61a2014449ef845b;
 0x177060e5eea7e3b800aee099735b074d3bee92ac18918a1be042ad000f861c17;
 0x27f7183ac04ef3b5307e450873f5a4cbd1ff709677de1a3de89476a7562127fa;
 0x272c4143f3f48b711d9e78964d27fde0614c2844861b23c1ba5ef6321fe64877;
 0x17c29df44b208e4d5b70aa3b57c92d0c65e0c4d780793000ab5b3ce79e90ac48;
 0x8426585ef062b24b9c4de439e0dba038e9d539a54ae8c4fa6554924c0f6b03;
 0xafaddc71d356bb01e344c03336f6c97fcf6c0ed9822cff5114e85b7fb18f3c3;
 0x27de3d9113a625f578e74566a25e54bb1d311364887d455699d89e65379e11e5;
 0xe8ae5a0eca1465645dc6b31f66d8356d6fcf434daf1cfba59ab08a91417e81d;
 0x1e41011401e99e5e548f813eb6c091f1ed7d03c1005affd1984e0149a2e59836;
 0x2fdde0adafb47ce46bd4e5d31bb8e840e8b2edded884c6c0522a0a323b078403;
 0x6d047a14724da146ae1314d38a559303e53808f6ffa90af4f2db3c52d2946b2;
 0x2cb13179d6e8a4ad1b9fec37376253cf64386ad905e240575fca86539b272dc6;
 0x27e98739b0e44313ce32f7c5b552a0814abeb32da96cd82de769b4d0f5c94c25;
 0x96c0e16b0dbf141e6bcfdbc0e2f49d013f35cac3e4235db39c5cb35f96a5e83;
 0xa5a4adbd74977d24c7cee2d6421ee7cf5e0534388e5f9e09b811a0544d1ee3;
 0x17939f4a2fe98de1c4f37b079b35e28f9fd918492317fe59311ee844fc3e773;
 0x2fad1489f14f53e5380db86b119e1fc4ab02fa84ec4b0f283bc28cde6b738aa1;
 0x2765769537137039a892f1c38aeb083dc07de1b728a580fff63f9bcaaf455bc1;
 0x1e31bc0fe231bae89cdd1ee8c3df3d8b06da2f88825e635df9bc7ad5c128f2da;
 0x1e516c3b9ae36f836ab9824f1c10b86a622b2f49f081cd7a50ae5192d296eabd;
 0x47cc90a4be717883e0189e898fa7d9f1dc998f91d255553a394b6b798326043;
 0x1c56d70a6472d972e35698eacd7ba8d40c9fe9fc9b04927d06404ae10ba35f53;
 0x205c05088541f74e95a23f5c7ee1d9913978e98fa759b621d0d2e3b0d57c5807;
 0x16874f1578735735add0540440cb042a966b8ddf3e51b4d812c673776bbc47c9;
 0x240f602afd2d97888bf4b64b23d6e44cec734a2746cf4580c430f72e46feb453;
 0x1abe8b11e0bfa0a5829568b66934e5da83b778ecfa452ee2a6b7140e191e7b98;
 0xc276760c90c65c9f228140185e42f3a7806840c8825bce562d0766a06dacddc;
 0xab7dd18d0804d394424f2b9e37439eb4bf3324198c44e7acc78d2e595d7dddf;
 0x74abe46b34d1daba12f1e78e3cfbe69a30dcc2b090897c040564f023ef7b9e8;
 0x2f240ffafdd27616a2eac36181dd8e9d9ff82f62b54537c48d497609858280bd;
 0x1009c918f84e7180e4864c0e20912026c62699bd562ee5bb24a00fd69a30332e;
 0x9e29496159b70b34f9707a8de9ec2cad82369b2d16885e98bada319d69e4512;
 0x21afdfa37d1b9218daef0b7abbb26e4d623f8ee412934fe8ebca9d9fcc2c6672;
 0x1ba7bae9ba2546ab2fa904877151066a9c5cdd44107d8aa829ba8ea0610b18b3;
 0x2cb13179d6e8a4ad1b9fec37376253cf64386ad905e240575fca86539b272dc6;
 0x2048256f57c9c8c24337bbfbd097c2627dcc0c2ae00ff560c3e82d32a55a4d4a;
 0x882758c559a9a38ed60d1113da22600ac3de62a8cc88e904342dfbd81f58058;
 0x54f6c1185a58025ca382d00657cea60c9667682c060fb5f2fad74f3d070d5a8;
 0x18da33071f0ebc4b2962d4b061144009608aae89e8285a326c0ba8eb0c370153;
 0x27102a58751c96a0afc1846801937ece25f59ff76675758d5388cce403ab4af3;
 0x234028cc85b8345eda398be9f3fefbd6d59973ded29c6ee52fca866a07b1f7a8;
 0xc3762675631dd7b529256732681b5b48ba5fad34019a65b1ef191b9211bbcc5;
 0xdb907e69984fa1f803f9f19d603391ec580bb3dc8357d170e3d4dbd9c107e6e;
 0x1c5a1126b94c62d06a2b2ec580e5e4a165deaa7cd1bfb0872440de9606900dfe;
 0x2e3aa301ead4fdcb606e9aee72ba7a2cb90ddfd72162ad9478e94699f776f6c6;
 0x279d20b786fb6a7ac5d4fc5d78faf9c47a3090bd561b2fa430c5db64a552396;
 0xa951ccbe5d7d13404cce3fe60751477ce1088102dfa3732e323d055cf38340d;
 0x26a8d4b18704a5aa8e41ea652ce2f60e7975c0b7eb478abc55ba0ccbaf8149e9;
 0x787247335760468918257e7dbb38f97dfadb60256f603d51104f62e4e662953;
 0xb0a7b524cb7c7519436167aeb4b5b185d16c110c2b36f162abfca872b3f489b;
 0x1efceec837f27a592824f15644f3889165bb1bc56d5566179a951333b255398;
 0x2ffa74a07ef6aa2579a1f68f1de64b58eec51380c7dce9b8966c789b4777fe01;
 0x304582e03ea48dbf3043bbaf216ea5970d49e23aeae55b774ffc615ae80d1be3;
 0x1fede6f02a4595564cd768fd400cb5eaa28b2ba191240030e1d757d6a019537d;
 0x1e33187373750a7f284427194876c8ff05ee7aa94d5b3514f6083990d4ad0561;
 0x1c5a22361e914dfae231d634ad2c502b20e84feda4d506a1b7955128e9b24bb7;
 0x1310273c02734e60e3b1f4c7607a48961c3ab97ed9690c2b26c38e36cf56361b;
 0x2cb13179d6e8a4ad1b9fec37376253cf64386ad905e240575fca86539b272dc6;
 0x2eace5036bbf892b106d6ad25bf3acdc3c94834e60cd380a1815cc4620e79dcc;
 0x2cf399b03624f2fe3ddbf48c2fa326e788f3b6e4b4469ef0d3e6c0cc241b7ba9;
 0x22d41054830f4b29ce6882b49839e9942ae7a1ae84b6d366a98f42f7baf9e188;
 0x15ae7d83075b047fd367659fb588806f23b6be3b4690cfc3ca92c61e71f5c765;
 0x2825fd5f33d362703d2fc902578dab75ca7076ecbbf7cc916d4ed3dc43b3a0e6;
 0x12d12504ba541ca2b28129a673acf96d4f246e340574ffcdf24dbad99bd572cd;
 0x29653490a05368030d3690d4497e930fd4370b0c89d5996b75b420ec803189d6;
 0x21188ecfc9b8a96b6dcf99b67bdf3866314046229ec07c8767cc26ac6d2bc169;
 0x4ca521fed16e4c8271f4101514280093d189d84bb4129d2e54bbb1508b72908;
 0x27d867a046afbb0c3cd2eebda088e476752b08c462fa1a91effa16d22403e4a8;
 0x1e754e7744482f6d43e6990f631a35d9564f0485a116ab971d7c1ba0fc6ad629;
 0x1dff12c679a235887e6c896304b46e3833f216398da1338be75ddfba2d77bcec;
 0x1029ffd3ca881002e4f00872e7af3299d9ae979a0d9e0236d8bc4a6dc36dac09;
 0x2099a9d66b52f0ff88a110bf3247146dc2a39777bc01bae0ca27f3b3ba3f1f5b;
 0x212ed3e424ee90af48f2dfc1828a78e4c50fab366f51ce3fa716164c89787e85;
 0x3fe48adcb5e56246e6cc8968bc0a62eba94984a1472b01f5a4475628aa38cca;
 0x2d726e790f68ce53fee0841e1a8b8fe36b8a756b3a0444ea08af369ab6ff809e;
 0x168de57f2f5a7a31b7b9c96ccb8fb7b33fc545cc19452cc7a5342b70cff74ba8;
 0x1bcf256686de35f672d4e52cee81f74c552e08099b3ecb8c8e8348cd3f36f2e5;
 0x6f7d1f39f8bc8fa314984d88fe0283e64b452e260d4745f9514a012c31cc946;
 0x267158ac0a27dd2e94f422285ee979565877516c414630ca5911efee1a8e311;
 0xc4d16ebd4cb046bf8e0e7fe3218a3f23551c79e8388e65b1c7a557e2034f957;
 0x2cb13179d6e8a4ad1b9fec37376253cf64386ad905e240575fca86539b272dc6;
 0x22e7f291772140723c33a8ebfe15373f0468e295d1b724f6e94d522abfd5f535;
 0x2c5cfb9974cb2299069f8e21329d54e5ec4f6b837f1727daf66a21af858b56a8;
 0x27a1b5dc716f8f70f18e6eef36ca15ba5df295f9b6023d0c8b860ff0948ae9cd;
 0x1510814b5e9ea61f47e924bf9b21496b391e2efd97554b057bd9d6905eaf28f9;
 0x21ce0a7da429a54515927fcc1791f25c658766ce48934cc1937dea204f64996e;
 0x2e2617468ade83de353a5a7cf3ffb4aadad12b05bcb65cd570c7200059956b87;
 0x284052fe9e822298ea89afab784617fd413448012b8a713d8b8db7db9d111f;
 0x2f1299ecb664233c145d53e9ac62772c9f917ef5fd354f595fd151a739610f2;
 0x2a89d81e36b4e71698dd2968fe86c8bf4acbeaec381985f3a5e67a5ea1318d1f;
 0x1bd908426f44f80f02514742b4860a72c00ae90ded7aa472090e5c1062c3e764;
 0x1a43e9dac11dc11ac20f3cf1edc5eb8a25dab4389d675d9322237a05cfc6b95c;
 0x2692699c30d2cfceb23d589df2a5aed5a8219ba6c436d0d920033b2254ca6a28;
 0x28857f7da86b117cefcc105f4e504eff5f11dc71e1e3718d7ab027ef6383aba9;
 0xdb4febade50738b1ab87405bfd46d20cbd4a222a1f1f8627752cf1b9a76c6e3;
 0x18724360a40cc50d7046eab1f3ccd6ded2edafc5cb4cbffdb9bf734c1dff33a1;
 0x2187d4118b5f752636e205eb4982247b95dab037310349ddde471c782e60fb2d;
 0x709ba7ecd374680134ef58e9403582339e3a55166f7f3943f281c57a275e588;
 0x202fd3f05d2bd8e2dbcf6e44d3ee0db6cf72ed53b00b7f0785605d89d139ce0;
 0x9a760b6af4b4eed3ab69ecb0498a75fc71b815b6bde4a569d39b6086096898d;
 0x2218e6abd4e31c4e2c4e21dfc8a266e946c599fe44b9813f282ef3ac6d24ece1;
 0x3fce74af211c178898a2bbbde84568bc09b8c2228481f7ad87e7b1dcde6bf8b;
 0x2201d6ae9382dc02c5345b141db249c120b288860ec8f99d504eabe8e7f23573;
 0x2cb13179d6e8a4ad1b9fec37376253cf64386ad905e240575fca86539b272dc6;
 0x17b549a98305619700b722d1392e3f22f3515c947ca97bde2cd79a761dd9a7c;
 0x1321911b787b6c29f58b50a53d66c5f436848103f333aaeba5589e43db1208e0;
 0x9ba5765272979602f4c59c7d7ce1516f48137e61938e30460d262b22efe1fe2;
 0x1705b7f07f5aabec51703713714785de6f86c899d97f3d89ab53459801ad77e6;
 0x18ac4517cd9c3d9b13dd398e5ce614022042b3ccc82fc8bbabeae938af1e896a;
 0x2d2dcf4a755c21bb49b4028fb3dd8bfb641a08f00d045285c0ca64180234a26f;
 0x2420e764bc7ba63b706b6b39a10c092ade7b1873fc1ae1bcecb8374934383116;
 0x10eaafb36f88f19fdaa78ae39af01dd9dd5c3126eb87df41aa55ac344e440b2c;
 0x1adb582c6692385a8cefd33e6ed3c7f23a3252dbf4ce0ea80b2cb5d957844a53;
 0x17b3f1bf0717764c2f01570716b665e2ab308ec61b511dd3e65d6bfca9030a1b;
 0x27953c6c48de10d405e8225bbcc73ea9fbfdfcccaf0a3eda80ce4d7e5ec27214;
 0x15e794fec75f7c4f7e63dec570cffae247d8bbb1d0114270d44bd7ddb5ab3c80;
 0x40632b4454c59b282560f814afb01e9f60c4f24013cb1a8d450f2e23bce9d5f;
 0x1e9c0e04247d8e1f43b71350d991413eefb67c273a3ada726e15d81737717a6a;
 0x2f8dc731a366ddd2b76c0bd1418bc03b207d7065556f4796cb325b8dd1db30e;
 0x24463e539fa612ef3028038bdadfcdade3c8475e0637fa4b1dd3ce10b0aacbbc;
 0x28762b41feb35e6509ad33ea77bd88983e6fa85ca2f6738a1a1653d3bf54d52;
 0x247c44be326d67af902022444d80ea90776936a81592baa6702002b27d6b0737;
 0xa8ffb6524fac8a3820378ee0c9adb2345fea97112c2bdb9a57dd3b04be7f63f;
 0x264d334f14801fe44177ccf924d22e91f3d98e1cdf5c6388b735d60fa32c7000;
 0x1a96bd9bfc5432ea29a24ae3c46b126769d2d8f05cca70dbab11711117f2ed6f;
 0x16542734a0c4983f8b8203a8e67f1c2290f7de67a02b2e4285bf5d1c3049eb14;
 0x2cb13179d6e8a4ad1b9fec37376253cf64386ad905e240575fca86539b272dc6;
 0x46208656464d4ae0a420f4aebf63b775d2974ee08535ef11014d4400cca822c;
 0x15f6a9ef383741e16882272bbeb9ab135f295272ad7e45a26e063aaf656094ab;
 0x40a8985a8323dd3b2ad3c285159f2f158db48b9fdef72c8c859a462d7f117f9;
 0xb9b4c7ded97f1a7fbb1dbccb8fad09ada8183cfedb790e2f11c77074634a80e;
 0x10700446bc61701c9dd17bc4354ad727247a997ec9e541ee42d9d0d2acc376e4;
 0x98a404fdb1c37a38842752a31bb1d2bb5112fb422bab40a1b546b97c719d923;
 0x1843b850d5cef8871bfd1e31525996416a8550b748cc9fd13fe42aa1f7193bf6;
 0x279c28f81499a1d819fb67132c84220d124b668cc206dbdccefe9478358a97e;
 0x1d6fa109f9d33d9e144c5b25fd5b2f189273545fdadf88af3c4a7ef1f7189e35;
 0x1e89c2383d920c8a80837bcaabc2ae9060bba4a520fc7eaa7fa5dd3dfc18d5ec;
 0x180670edb0cc070ca05eaa724cafb4ed020561150ba343ac5877fd8585edcdb;
 0x44a14d1f731de503ecf2a6438ed17ff8a552a01d9fb66a36fbd08aee8a27a6b;
 0x1391644b83aba3c7c86a81f240efb147fe4c1c53e08ae3d3b0aa02fc1033b02;
 0x1a9373fa92867334ec17aedf833ef19fe6f67a68d031f7a088091730b2d5bc91;
 0x1c5c46a6852eefafee39b8f31935c3325f450000caddbb35538f8dfa02b3feb;
 0x185b3aa7a434a7225057c6bcc8e68180dd404e58e3f0a8733fe64a0c1d534102;
 0xb562eca994127ec94b90e76255955551cc1d6e8412918f9aaed138e19cb903d;
 0x1ab2db0ae479301dee234d231988298fd46bdcf3d1ad8cc11389ee780c0af1f4;
 0x2ec8c3feb4e03afb11402d5929fbc332b5bb7109fe326a5af8613dabe9a6a94;
 0x4dc3fb12329b17a70b760ae75d620133889283cbf88035505ffc97ce4641bc9;
 0x1297d2ec92df98f1ac1a318dc100557237dd9c4a96685f1d58d0fb61ffc4c094;
 0xa84c5d2f491a40654df4992df98f681f157bc9fb4a0a6ac1aad9e0e994cddf9;
 0x2cb13179d6e8a4ad1b9fec37376253cf64386ad905e240575fca86539b272dc6;
 0x1be6b03ffb55eaa0fcfa4ec007ad655c776ddcd62e7184dde03b1c90b1af001;
 0x2910d31a4ab9e0aca79eddd220c56905bcaa2dbd29b6d7bf389a4c50666219a3;
 0x2839abe3d67b01e69ced2af2ca20db9b2bf359230d7bf3c6bbb79232624a57f4;
 0x2d0c50609fd4832ac428bc6ed4606dc5e5cc48e9965c600c81325a8d4ef87ae7;
 0xa9180406884b203bb35bafbcf2f4abd0ffe90aa9e3e1a82ceaff556d2e22dcb;
 0xd5e3761475ba3a3d55133eb45a945042ee26b747e3eb42a077749f4f3676e4d;
 0x811919e5bf03ee004979e2164e244f1ec510eaf5fe6e5107e5e6f4bd123f77b;
 0x23d92b35fed4accbdc074695f6d1393c5c2bf6f2167fe239b2029d56579405b0;
 0x100576c563ad00ccd2b07afd817dd2f8dba2535b5c38de7bafd08691b04933e7;
 0x24cd184d143196317be3f594f8ea091f3442abcf3647c50be545e510994dd90a;
 0x128748993a58cefd65bafc84f486488896bcc8088006a3f7afacc28afd6fa380;
 0x126980393d9f697cfeca3c8cf5aa466cf7699c7b24ed1fe2bcdcb3d98e01eda;
 0x3d53b1b0659c95cef35a515696e13d67643790564a80ee3fbe3c5b2ff7dbb69;
 0xb1cbc1218a01ccaf22711fcaff805b05bffc45d21458e41527f06dbf423fb10;
 0x2d2b944d4f9dfd80472bab4f0ce520fca635f74c8b9f1e1ca0fd52ec8af49ee0;
 0x286ea70600778faee3383939faead69a24821fb400920778c7529a1b1c90f54e;
 0x1238e08378044550a836bcfb7129f0f0d6253eba654e96035de06513f6ee738d;
 0x20d38b283f1f0abbbd99af81d226cc6503ad86ea1a2ea8e9419ef15a74f8ad57;
 0x25f5d1c94a4423c994f81d1f5726c8133c5d2419fa58f226a94c09b61815c2cf;
 0x1ba4948c72f33685df0f9eb2f6678fa6bdde0ee261faab0a63917fdc30f0973c;
 0x2a306087a9453e96d0007ac70600c3f1e08b4fb5cef04232b64fe8c0598674cf;
 0x9e528bcade9d9b1e99ed53a6ca87dd8dc46140d57d0699a8f120e0c77af65bd;
 0x2cb13179d6e8a4ad1b9fec37376253cf64386ad905e240575fca86539b272dc6;
 0x2a779727d7ab06dbd553a840294589296f3aabb6a314afb5b083f650e39db967;
 0x11aa7127dce97c6f4beee5dbdde1d5c7de812e27376e249f41a52171c108324c;
 0x2e6df565cac73a4a04c2cb1fe541d9e3df002054622c790a6c8c778e484da06b;
 0x224c4dec007432ecea73e548cabf60846d0e6b72ed2f4c907dd9e03dcb381e92;
 0x2095194e2ecab4e0e731ec6e1cbb0aefb3bf646f6e6c804be5971167ebc58f76;
 0x2ef057063be57233d59137db76c7252f1d2cbf5f3c4c6c8ccb22203c98d6e2c7;
 0x15185ba1b9b8060768c5af0f70636dc62fc29ca5100d76fd4f9c4767e8f87fb4;
 0x1ba274d2184bfef2d0be986fc2d41617f43d29a30b328b6ce3fe41a406669532;
 0x27528f734c66543901cb1afad7414892ae14cdb75ed5fc59fedcfaa399fe74c0;
 0x1185229ce9c183d7dce8a64999623a469392ca6d2e4f72bc2b6c4772a6b04896;
 0xb36b20c33f83d20c1c49c00c65ba85deee8345f8563df448993a99bebbef6d6;
 0x1ee843386b3aa0c38471fe7c60b638218ef9266b542a9b1526deb8dc9aa3c559;
 0x107972f77e0382e5d3cff5b6858e85fe6ca29cfe95b60159a9dba68cf55ea21;
 0x2fc46021b9841db9dd3cde3ce58785eb5f5b9600c8d5c0f4086130cbfb261f5c;
 0x22b8c705b7b675b691343c7f19f68e23745e55aedf5eb931c37bd89563f14a8f;
 0x1db0aae1de8a581770c890de5e66c763301cc6d522ae042db366f330e87013cf;
 0x2b17c19b2ff64a3d9a5bd5cd0d4a21cae7b7d7c899228050f593b2da46652d3;
 0x1e3a4c2c9686927495d6cc3c6e90b519deff0b55ee3124d69ce5161c91119baa;
 0x384603dcc8e7748739a4f85462cee5fbc25345e02db231f40e50a851758452d;
 0xe842866ee1599809910ecde3d7ca9f1d867f96459985ba119b51066866224aa;
 0x19c09d8567e90a622516fd1973ce27ad5fcb66aba8b248d06de9ea306a6fb2c0;
 0x134176d3a40f1bcad9f536bb92b8aeb9a4c3d424b14cdec9beed77bffbe754cd;
 0x2cb13179d6e8a4ad1b9fec37376253cf64386ad905e240575fca86539b272dc6;
 0x1918c06693a26c41f0025c99e93ab46213ddac227215fbe5d1972dcdb6265afa;
 0x2c2d3ad00fcce75da6a5f510d5952918f446016a8fb4b1dc41af9321803468f2;
 0x18ff4731631733dd9f048503b481b9b7abd2ad7dde5a002d8e0ffc425f574c09;
 0xd14a3159cb458b4c5d65765b15c56653be2cde202d8b285f5c2cac7e01d57eb;
 0xaf7d40dbf6a9d2e138095f1499e6505c326422282f1bd30fe98d19590298e96;
 0x1f728b62200f84d56fd916f1033868066c5ff9eaf81726ac8f43f08f311bd806;
 0x2f1509a804a1e612847578f49ef3d4cf0067adf3c3575dbab3632f6e6e3dd5c;
 0x41c67e015b3770721ce4b96ae6219e6813ccffb152dbfa13fd37d25ba812f06;
 0xc336783fc41679f67e808e2eed1be9cda3fcee2b04394812df95f9febd467a2;
 0x1e34badeb3d92a88aa84decc7b70ea344c8852c9a17d3e0dcfcfd49f9d103548;
 0x2539fed64ca5f8bbd4016404921a292c7652ee3a7fba314d675e02ef29f01095;
 0xa83942d60d14f46c3c9cdaa90390faccc4fcd2e9c3ec8cc06604cd51ac820d6;
 0x2724f8dfd70e0094d613f65f6b48d42e22a961d06f589ca1a64b74e0ba9af8a5;
 0x226e101fcd7f365ac33c608817ee6a4c143504927affab95f4d7f95da55983c5;
 0x295d81ade71715f0c9071986b3771fa8621bf634006463df3b53dee9bf37b189;
 0x14aaf0e78ca5884fbdd6282dc2a2008a1b6165adffa6e9160a9e36190eb81afb;
 0x2652e6b66e323877eacdc4e0f32dc9f72d692ae7501d7fed6c96154529f45a39;
 0xfaa22bf6ee7ed51ebb087c35bd33ed34bd4474073349a80e9c9654883091a95;
 0x12bd1d8d922cb20e1d0e02d066b120f26a1979f4374bf0fae43cdcc0e5a366f3;
 0x158c1a5307ed0d18b58986c274968b23e404084a78aba5687e2e2c4f009606e6;
 0x28b5ba99540925c874c6b815bd7303dfbf774c5e1012ef2b305ca47559f597b3;
 0x2b845d95e442fcc4bb8a49be773609957b578e19ee28baa880226e3f911d26ef;
 0x2cb13179d6e8a4ad1b9fec37376253cf64386ad905e240575fca86539b272dc6;
 0x1b66e79c663bec66bf23b5cbbcbe9bac308c47817c3f242d3f66b6d565be3b9b;
 0x79f775f411c9c90149e59e6a34d6f6f47947db4337d9d3c18bc4b51d4cad270;
 0x3009d6cbb50dc688b7404cf82d589fbad43d0742333927bc049e48da6913e606;
 0x1fc70661054fdb2111e49907222387ad311058d73c0befd6314478175e356942;
 0x1ee04e8ba0265fce330585518894029b62d9bd50c9d0a6f87f1280e82859e9fe;
 0x644f526b432da58421456fd00e0e29291e8d0df2ed27626c42d503c62e4fc9;
 0x27e99dd0f8fe2ca6883ea897815b333de616c56c483c0c9e45283067dff3c4b8;
 0x581ac976cadd2b1dfc14d8b3cc604f1e8e79dcfef24b8f67032c18b90c17e9c;
 0x6750f648570d1eea536bc3842e8a9673cc564c9784e57793475bcdb399457fd;
 0x15822b758ce9dd864fa21222839e7eea4132d1b800819ea095a6465d9ce6044f;
 0xd9ee290eeb8ccad8fc7bd054d7e10ff3eb0e3615f770151fe6a276d53da7738;
 0x2aff79aa26d195d6001c0805b35a8c05a08b59a0e819c7689f176ab29deb33fe;
 0x237fa4d9fa2fa84b58ea68d75927afee778a5e476073a9b30d6328ad62f2d807;
 0x5d20936e308b6eb8373a899e602831ae0cb091abea22cf044de6f0cbfe6723c;
 0x20470a9f2d2a3cad5d2f92c333444b429333625d0e07e064fde8454fbee764af;
 0x2e5ee062393b836f391171b5c738e5d731de49e833031ce97055486def2d6a1b;
 0x15066a745e56deeb113b9dfa9e92ec1fc4003f8dacebb4f2f0a591e9491a96fc;
 0x15af3f3747ee7d63738b4b137be08c44f0c90448307d1d2d97788fdcaf30238a;
 0xa9db2ebd67bcfd0c5c2e2baf93fa206537a0be5e295da9334c19515018d4dec;
 0x9d819663eeedf9ce5b97d71abcaa195f6ac0ffca2e4a99d89510bd29da37cc8;
 0x43e45a7ab55e8ed770c8bb140c5cf98a079f0a286c76abd11486adec2b9a69a;
 0x267390f339be917c18588ec7f9b53eddda42bbad0e44351d1cd46421389b06d7;
 0x2cb13179d6e8a4ad1b9fec37376253cf64386ad905e240575fca86539b272dc6;
 0xdd2adfb2aa3b4128b087b5250d5e754672ef02ca8495a5b8f9c2e51d12fe27f;
 0xe44bb76a256740fe47a818596b6dcf40b9db85c744d3701bfb808a00f7ccbe1;
 0x68a25d2e27da4305caea7b47ed35d9712720f654d72d094e4d9b3796ce88a27;
 0xa6624b2e2d3551843723976c9168b1acd3ff196804a6cfe61555ed0048c3554;
 0x2830c3937da98493bda628849823e656aea96f309f417ee6a4907009a4957fe3;
 0x1dbfab542ad1a8d1b064c18f2da82b6e5320e8285d33d524229aed44da0fcfcf;
 0x12f049967453bf43dacf198aaac17d184f44850bf49820b37f36df953e57b08b;
 0x2ff0b4f794179f6cd4d0431d7aeca0e320270aa3b0e3f63d832f1830ced770f3;
 0x287045969073b1ba8007b65f351ee152d9bbb0e68c75fcf8a3a3e0dc9cb9935d;
 0x88750a390f67a5b19a63ee69e6055949015e796d41a2150f8b83f58c1086b4e;
 0x2a1b684b9357c3b9b675c9a56d3690d3b101ff4c50d5b7f97d68d6a247ad6e3f;
 0x924a953beb10fdabf6088068bc42d18c47a292d33fb12b1dd11c0942051a5f6;
 0x5fb81ee2e1ac5e198c62ea767270d3b52af1e24d4d6857f82c2ef4b94f39740;
 0x1afe1a783a2d68ce8f79cacb2bc57502c6c5ec9ac0bbe35f55b34bd4d944e15a;
 0x128e66b9d177d588af9f9a10ebd195f03030cb2806560ccec1c0469ece8ab9b9;
 0x2a89bbfccffb647312f31a2b0b68d731f65279273447021b716f8d7d1b9eddbf;
 0x2d2c1cc8346008effbe81b219d8dbec37bbf2a6f6dfeeac3b979b761663404ed;
 0x2a10df4948ebb56a6d1edf6b2d7bc7d7bc3b3a6085565a90bccaf53739093eb6;
 0x29f0a91579b0418cddeb5fe403d13c929178124713655833284ce4386673625d;
 0x2d60032c705ab2c8e457ee0d225acb206a5cabbd75b088d97656de6df83db165;
 0x1adc61e3889546408f21d1e1cd9533415a7cc177598464799da86e31778ea854;
 0x15d24ec281355e28a085dd996ea0c90aac7efb5d87f9bd70a2a6b9db6b50b7ba;
 0x2cb13179d6e8a4ad1b9fec37376253cf64386ad905e240575fca86539b272dc6;
 0x1be40669c4305af08dd9cfeb05bc7fcfa40b998bc74ffe11302c4f5b0553a38b;
 0xde0e333621fcd0fb11e36805f9722b7d5b53bc39cec2c63a02ff853f30c04fa;
 0x20f0930ce2a982f6372e84ab5310be3beae1b0b7f90b8e562c26c2e757702d47;
 0x299a425dac7d3a4c877808a7459597fda5984c422b6a994d81e195f30385f8dc;
 0x2f3b6c085ecf99a58b7507dde8971a225c511bd6f802ee3a6cacc0530e8a33d2;
 0x1dbfd1be6281a5c77b4fb2c7dc937a25dece301dd371ff67769ec907ff76c72;
 0x2057718828a717820912bf7aabe85d74d0e759d3357db223cfa111b82ef48f32;
 0x2634e710d328db82ab3d5c000a6e16e4cab4cf0b5c10975bf684488df5d7767;
 0x1508d73e31efd2a02b601a7151ca176fc79f3721fa686f737d66b4a43c1597d3;
 0xab1c757a2930fe704ad42fd54b19104397077d5e52947a92f810b0ef5d87871;
 0x9da497dd64c5e3273900635d09193df06c1d2426a0fd73d7dddc99c18daddf2;
 0x2381572e35bbe9d3fbdb3bb1f1963bdccc535817b1d3c077e51d7fa9cd9a6cab;
 0x1435a49f928494a49e2a67e4028810e23b7f26843d1e22e2d737b40f01da11ac;
 0xa41cdb54589156aab59180023dd35374103e5a4bbe746ed8f2fc3ddb26f8e25;
 0x14c484fdbe36491934a1eda09b63b86d803e7059cd8e3314e8d774b7910a7cfc;
 0x2a77a4002da2b4e2ab43232ac86e8fab1586b84ef60705d4f5aef26aa5421749;
 0xf63b8eebf3c4535bda0b094c007bec3bf0ebb888ceeb957858bfd41e3b33a49;
 0x1277d3fe5619089508669b1a53372f2f10ea0acfd07e684219b7526be3566d69;
 0x242bed90744413a413be2f93566487aecf7ed35f2f6886e79b95fced93648d2f;
 0x2f421f7536d6fe02069b4a2be1adef885983ef7ff87af5bdbb73904f96cc7044;
 0xdcb8d37d53a5df0f9ff37d9f8e111e005d70c93bc23557f6041711a167e62a4;
 0x2b8d52018de42ae27a896a6100b02cbb428bcef7fc95c21e0631a0edd273ecf8;
 0x2cb13179d6e8a4ad1b9fec37376253cf64386ad905e240575fca86539b272dc6;
 0x20ffc046123c9e7c161ec2fc0033671938b1bdbbb51504bb48a6bb7691f867c4;
 0x37fff4149f4439e438ce162d27ada4858d0292fdd5cba6ad88b72e73e552b2d;
 0x1de8c8e615fa608fe89f596053f7f2aa3b21158cf1116eb6bf12e98bdc5cd339;
 0xbe3251cdac6825fe72f5f701c19215869c21db3e146faec1b7d83e291deea6e;
 0x25cc68e0156fb406fe6a1d01bf926214705937bbb2dd5af7d2feb70cda04b273;
 0x1e6d41a49f875455a20e395c2f5466ac44d906c5b77e21cab176934d6ec92fc5;
 0x2e67c91faaf0d61303858bdce074a2f61220d62977a4d6963640808413273f31;
 0xd12fb42faa45cee5774d38145639dc1393ec43ceec5d54b8d81f8ce3d74cb49;
 0x23e70a4146133f0a77a4e1d743720692125531e4b83edaf6cac156afc870df9c;
 0x2df6f710ec27c2d652198613afc234f4c6d65ce1cf6b5488b3984e0976f75cb6;
 0x195ce59e69ed9141b51479ba07aebb50eda0d40c16335c1dc3371581b006b9d8;
 0x210f8fd97f1707c4ff9610daf5bece6fd2a7e0b4c61801662ba3aa177decc92c;
 0x25f1b7680e11f44ff74657d2d3bd43aab044798def28b435e75686606d12aa67;
 0xb2c75ac5a5fb6d2b4fd51256d3aa84daf97cd4611e54b1ce9aec26e298bbf88;
 0x78398cda47317311211740262c08710b86d61c54ae55636a4d15220da5b85e4;
 0x166af5abc6ac2210fc2e48e17a3426b597bdcaf849cfb535d3a4a83a16fabd84;
 0x27194ca79ac4773ec964accb35e09bfaf60f65fec69f6c53a45ab6a7720410d6;
 0x10c46d3c254d57f49a985c74732f27a402232da4419eee8d59c39fe0d25674ff;
 0x1621881967985ae3b969ef554ded7e95027c80a3fd24ac8233b7204c46b67b15;
 0x28e893994343597be2f4993da693ab68a1b6530fa187e0708e6dddd65e19f65d;
 0x5b240574850357b93cf99c2a4fa39529f34cd568be5b51fd6bbac19d66a13ce;
 0x2a3e91c0f5583245a4519e6d5fd37530ea97eabdcd9e0d2655ac4709a88e6b58;
 0x2cb13179d6e8a4ad1b9fec37376253cf64386ad905e240575fca86539b272dc6;
 0xbc9156ea781bb2f4a48a6971a1463c341447af7640c0dca22fee678aaafa67f;
 0x216532d67a620605bc236aa3d9967bba132c18ed4dc9fb1c7d0b6e414b69ed68;
 0x22ddb91daa4a4545901d12772b1442f5ba4e85eee6a77637fc31bf513fb116ed;
 0x2683cdb3a1a277aef9c2b9cc42d9835ac8731f42ee8c1d97c91843e330cc797e;
 0x2be49377140f55de27dd9605e7ae0438bea87e1027be1ccbd27547bb1882a71e;
 0x3aca5d3892e4e23a82e32970ae06cf7944979744108cd4014495820f3f3cafb;
 0x67c57ee42c925a4fd7f0b70805e871b1dea5c0c64eecf286f01a7f82496d0e;
 0xae7cee32928e8bb4b2e5428f6ed56733a955dbb415961e58bda4537603370eb;
 0x270c6be726a888900c325fce8361fee0766b4178288e29892e43ac4bc5a7a53b;
 0x2dc8ef31b5b489de3a0218cca5215bcd23860891d4be8eae01bd6b6a9fd89e0e;
 0x19643edd20d71982a49a09cb1e0db7d981d928413f5aed74a20b339a45cb3a1a;
 0xcac86cfd70c7bd0f964e2186efa830356866dad5402655391b164da07230607;
 0x1e28a98366dc2b5a1dd651c8cc239f7d6a65784260e4f99d5f22d3acbf089df3;
 0x65e579467ee3caf9abf6427ee70e3f04350efd4f240a721ecd614bf510a6d15;
 0x625a0ed5662a51dd09f1b361ee979a3d90999de6544dd012e0a3d0ca7f54290;
 0x14ca160eca3dcf16f63e65745c1fc7da76bd228af16cf74d2a322a02c2e63e9a;
 0x174e5a80b5654227609644c29b2ae1f7346475075b95bcf09781b29dca6da8b5;
 0x159f373903a0a9fa1b30f1e77887b7f4a13c034eee827f0bdce9efc244d50300;
 0x1e6a451f0965435e18b8c68ed523a5f5700731fee946b446a4a56d697a65e136;
 0x292002d89878ccb5914c5d7951b45952eb8a48c0d4b8ca78af9db15c0fffd2b0;
 0xcc6c8b2dc526673c038b258a850a754ad3da11b01690ed359b1073e37ace2ba;
 0x2abfd63285e9ac80fb865ff2fda5da230f278f9020001f8172727bd6f257059a;
 0x2cb13179d6e8a4ad1b9fec37376253cf64386ad905e240575fca86539b272dc6;
 0x2854b5984bd6b9e733809dfce1d7fe5ba63fa8d58d57e4cd9f540c2368db0dd3;
 0x2e88865414f2b4557548e383c7f525f471c9fe0d8d64f0b8001e630ea88ae41e;
 0x23790eec3f5a240f8398eca3719dd949c4e1b4c483a16aeb268afaebdda79a0e;
 0x2fcc8669dfcf04fa06c75b022b77b84d090df3b822dbbaad1fb8e3ee948e86ee;
 0x67fef650a45711037a1f204eac29045803fa922ccf8ad518334c03a29178838;
 0x248f8c46bb3f0bd3aaf83f0c410c0e56d9dec620820ae91d41c03c288c0d998d;
 0xd3b6a0004a85b63a85061b171d87480cb262b1fe4ccdb71be2114f4a8b13fa0;
 0x7b065a9ccab6b970669bc32838db4c48147f0661f53929f561a7a835fb9d567;
 0xe02b6d12d48362677df07056afc1bf5eee55cdeea65044de0648a0c7c0a7894;
 0x2fab90c9d26772010fe914e4b88a71e32f5563f4d4a138855f7ab4247252b84e;
 0x1989c2e54741cdcb6cd94407dc6ed84e7817384af807ba6ef8b85d4bcd313c5d;
 0x28de889080866bde3f19d84b253477607071c34e59569f2fb0aa180b44df1418;
 0x2804b79f457cbb808d034036efba0011bd3ab0419c39b094a7341eed26a322e4;
 0x24eb9b802012e11386b4ed5ac52da70957cefac5d3911ec1f042917e479bfa80;
 0x1666ca210112c32bb19b256acbacc96f58cc0fb7dd93874d50021fbc631b80c9;
 0x20799de358137dbfbc623c6e4acadc25845bd214d4073f52b8024ca43d99cd34;
 0x1bc10c44525f82f98f44fe8951d669c8bd1087ec8fb25d08c5da11ef1117e052;
 0x1d8dd037d73544d78d4811ce0d6b48264449172217cfcf67186eee425e18cbd8;
 0x2fbb2fcd6bbca136c183d5f94582c61f194aab068f915bfe0d85cc5d4b82bc08;
 0x1eeaaa5f7e1834a19655d80bf2daa1d2cf50d73d18e1973e6a74c487030474e2;
 0x1f7eb06d961fede066bfc2773ce8f36dd7aa35a727a60780719f0b9a627f56fe;
 0x2981fa5e6672d977bb169d70e070e73ab9d7c3f20950b3242e9295b45390f46f;
 0x2cb13179d6e8a4ad1b9fec37376253cf64386ad905e240575fca86539b272dc6;
 0x28776c75f54ae00f3190d1e711194bc03ff39d248d96027523b166f942920a86;
 0xa4ab73336b833957012f0e7bcc36899849b2db78f8fd707b692578e14b80328;
 0x21ebae99beab3aff541833d68c75fe506d857d8919a97e07e3902b919d3e143b;
 0x3029aa9bc55b8d1ae128f45ba368cfb20896feeabf39b966d0c12742bbd28bd7;
 0x239128973757a7e9c8d29d5336d1a53b277387b48afa946628f45d03eba49de;
 0x10a0435f8e32fcd6cd5d8ceb3a3c078227b5cbb69966a76d7f1d751e594479d6;
 0x2f5d49c2ab9c95d09cb160a6ddf47a0763fe11fc3504478e45d1d07e641ab29a;
 0x1181af9db194b4bdd65f61e51a4f7d562307f5745522e265198b320ae649556c;
 0x1b9d2c4a0df2bc6d9d56c76317180d89b9660b0e3ac54e2e7ee83868ac39a621;
 0x1f5c2501487912b1ef65f072a108f1e6cd640b1eeb0dc7dc0d579032000b8570;
 0x72c3f6dc95aebfeabd7b79bff8d0073670c5fca43b5b067caa4828e67bfee02;
 0x2328cc21742ae15efdbbba3067e95d0134f49ca25303ae9872315e29eaaf3d1e;
 0x1a2d67aba6dedc8f6838af4f2318ef7575a0de251cd8bd4b9944c0a96d703b20;
 0x2eaf6ca068bbcffdf36dbd475ae928d10a2055dc10da29f77ccff5204c506876;
 0x233188598d95df9ea9c86b38db0027051e6a4bbf4bf27711ed16489783187d5a;
 0x7b462ddad87175e51fe8bad7cb756973ce7763ea732b3f64dfa38a0a0cbde51;
 0x14bbd08ca052562716a460cd30d0c3d20a21db0742da1e4021feaac3a8da738c;
 0x17bab12d3266540f45d4ee8beb4e4f01267e296fc291ed54d0f4181a87e0a53a;
 0x2a168a263170030f88743436b706dfe82da391914f492e7c48a2f62d56cc9d40;
 0x233927efe170a047d3d309380bcdd2d2c7bba7541dac277c6cfcf3d1bb16571d;
 0x10b9e5f24f1f4ef89886d8ad3f571f8f3e8633eb6a3ce7a00551d123a1de0548;
 0x2767b7f7b872770da90c9b9fa57bbcd766b878f7bf6db0a1249ef4dab08c56d8;
 0x2cb13179d6e8a4ad1b9fec37376253cf64386ad905e240575fca86539b272dc6;
 0xded85a7aa57678558da049aadb3f84b88357510e6424702731b6f39e9824eb5;
 0x66bffbba5403655a7eff0286ea82797fb1b78ad448612d5e5ffdd513979fe8d;
 0x2be44851213461736ad1c62746a446b9b9ea157f592c1d54f3bdbca0e81b1d28;
 0x13c7aff223c351a0136cd825f10e41da937896c3eb153e712cabbdc0dafd01a9;
 0x1e1295fede0148bb32d784c659938de19d63cd8f070b793f4af6987d4b0a2ca1;
 0x108e731bd672ffd58f3bfb3d66c3281da9a79214ff667756c3193331f15ec2ca;
 0x28ee2087caa404a7b9c88d871ea969073c05aa2d7f8c8afaa372fbbd29fec908;
 0x1929e70c3df9677a16e6bc3ca6c8f45435f1781bc7d3fab5c2d9f21836bca492;
 0xb328f15c14da87621bf2b7b1482557b0e1e4b62ed771ef0b5c0dc2839391a9b;
 0x2463924e854fc278f78d41ac3ba4c82e9ae33933c1f673d8fb988f5257ea48cb;
 0x206b2c50fbd93e4ab16f20b5e1dd4e31b40b410bbba02146d1a7e7120a0bde78;
 0x22a8169f4dc83f66b725c9db0aeaf6944c49f7f59e084741b74dc75f17a2d582;
 0x131beaf6c38d2a148c91b01285e728d83c5b40309f89f2ee1d69ccac916cf9cd;
 0x1f2f76bc23a46c9ed5441b8e0e91058e2eb16165ae943eba8b61f7629f38708e;
 0x350963d2c0aa84941005b7fc8747fc61365ae03a600af938753c62384223d64;
 0x1f43a719acb173edf3cef4ff57b3e3b54434997e03bca2ac3164d6d206298ce3;
 0x2ff2c8be1964373563d96804dcba6db4f2004109e4d73abe431271981c9c8004;
 0xc8aa745ddf7f419258d9f829ce7abbde1f5be1343ff89d90a597b8101cf3317;
 0x8ec029d60cddffc7b81dc89586a6afc233826c1641ccad7dce7da7a0d552002;
 0xaf6f27d2211b12aee10a405ba1959fba32e4da7012c94dfa822b683857685e1;
 0x23cc9f4ca99d30fe0d7780397d7281775e7359c3be70471bc6482193ca3b318c;
 0x5de7e88f631488d23cddebbab25e128f8cdfb524acbbfeaa7d2d0bf47c2e7f3;
 0x2cb13179d6e8a4ad1b9fec37376253cf64386ad905e240575fca86539b272dc6;
 0x2ef97e821dcfca90bccc266cd3b7cfe86037c961414b970511a845251204cdf9;
 0x1e74c0e015eedebe75a4d569561ce744107d8f4f5406e65685a60f97c00c0c77;
 0xb9e7e57a6287f13cbf8760fcbd1bfb988e1dea2f70bb4352fe9acfc560d3a4a;
 0x1daceec3e24e703f54a27a8804d960d841af5a0a10b4ed8f2d5aca46b61ebdb4;
 0x14add4559507a7ff29e4e915a30bcbc79787408a6cc31c071199e81f03ed1b12;
 0x214af846405e33b9747a25b176edcd7c1934c101d36a2abb81c958a8be7c06d7;
 0x8f62c1e4c1e9fb62f1ffa5b262df316e32b769414445444c4e345b6e6a8e3d1;
 0x281cfbcfd9fe3fba3329b1e3d6da6ac72e3d401483efa9946cab0ab530342c59;
 0xc4930b204d10bf30ac793f21dd5cf84cf084aff28fbea40474f34056c4b81b8;
 0x75717917a0d4e210ed37f81df652af88c78224d99d13d46dad5a3d040907c65;
 0x10236e639476d565e1de655b0f816e859b5b3b38897ffea9ccdc9d95580dd0fa;
 0x16535568d792d43083a2c8a155e09645cb214c088e40b70589a610675f2b9bdf;
 0x209b82d2cbe5617f7cf4b7ca05f0bb1dd80dc2a652b50a23e68de856334edd78;
 0x10d0843c37e9ffcc0692fe6018d480df45f96e2ad41bf9539197ebb12ae5dcb5;
 0x175f7935e1d6d289b963b039c85cb1a3ffcba2f681cb27a6364566acf5ff2d1b;
 0x12f9631f7d9cba5b34733142a23a76a4e9bd76fc838bbb865a72aec17a3ba09e;
 0xa27aaf6ad1953f49c5240425b509144c9998735a59e27906e98518f7bcbcdf6;
 0x339c108d3ddd07caeedccf45ba3a1729cec3387338d45fb0b7b896faf618118;
 0x1c7eb764b1b6372c8a7f18549edb2dec9e713ec618365f169f0633181ed21da1;
 0x2d06b5cc446ac8715cd21b1c8889728aab4d3b5e7f4eed7faef3530fe3766440;
 0x183445f90535b07b08b20073ba06950f500eff3d0962ef609a221fc0df504b0b;
 0xe05fc0656468b85eab718ee19bcd04d0154edc633843570adc6e7d10592445b;
 0x2cb13179d6e8a4ad1b9fec37376253cf64386ad905e240575fca86539b272dc6;
 0x6941082d94398eebb54a701966a9cc45b303a0989725381645fbd0ff97d9d66;
 0x22ea9d22606530112502f8e40f9277e1a334e8eeb307a03e3924ab8c6701f186;
 0x16ce67e884bfd1782872fcd65b18b3f27af8c1edfc8ddefcda53f3669651df33;
 0x11fc35853f485f0ae0902c650b9749b481e336c553fdd90f9767d8bfd52c63a9;
 0xf04c0f3525c56f533b23a4dd4deeb7b31938dfb1531863ef1c2066e8758dde0;
 0x2e15668ff3beca65235e7912fed8b7ccad0928136db06090fb6938ace207f363;
 0x2fafbe916d3af6fd0924cd2973e1e2474b10be1db252cf038fc32e732484bf7f;
 0x9749b2bb5e6668839c8be56fa468598f7292780e294e47b155c12322e34a0be;
 0xc81643458c5af368b81dcb405aaeb3000b4c0ba29c376855470cfbf2c35e3dd;
 0x2f7745d6f815dd3cbe2c529c63f07d4a646015842c6678456406a248252d0f78;
 0x2540261ae5b2a3becfe0ccde660cf756cfdfbe8fce0713c061da7eae6e5bffcd;
 0x1af533c9109087f14eaf413f798f4f0e8d9453e7cba136d9f5b2e680e80ac911;
 0x27115fa52689f8b86f2966af42504d25dcb23d541dd6a1f5d328b37b9f982352;
 0x1f955bcb282c2c0e74b4169a61a510d4fa506ec8a905051cd4fbdc9ef1130654;
 0xf13fc20a68d983add2992ef921aa7d9294e574b8a0c697c5d56622a585ef6b6;
 0xe480c1fd8e61a5ed800036d9110caa9a55309bc46a4fb1d7756b7e96ebd2768;
 0x208a8b0cabc7890d78e18028768a0a37120ff1e0d81cb9541bbd781d3fb5a679;
 0xa4bd40c175726b644c3dad0e29d158fa1b1753a4a59a1606738c57026eac391;
 0x859bd87fb95504fae2c58816724777f1c93a172de0b231da82c08935a950dfb;
 0x1572f4f0f2f44e7ab54f3d0ee208d13bd9f4a16a2be71600d10651b35483ccc4;
 0x2595802b887ba581a6463dc3dd4e29be1b0977c87a724078d84fa16da9b8adad;
 0x28290084f5f35de74591e06a61e7a1d696a79b2fb8db90d5a3deebdccd483987;
 0x2cb13179d6e8a4ad1b9fec37376253cf64386ad905e240575fca86539b272dc6;
 0xdd61a5489d4bb7be05223e75e80040cffa4469bbc1d2ecee02d0d5d99412e85;
 0x6c52f4f90d713744ace66a17d3171c6d83f5abea58367a3aec7d538736ae17e;
 0x284ce8cd77c9caeb5222618bc77d4c3d299b41cc74812489591bb1f23a5e8a14;
 0x1e914c2446466051f961f69baa9b00c56f018232a1cae8c6933a1a54efdcf1aa;
 0x1f9f1d5d61c22831aa9647a5b81bc92666882640968d63c03a338173c0fc392;
 0x1381629462428cc21dea769021a08fb83f68960303ac1368cba88b871865f06a;
 0xb272b9552f9201b03d7ebe1a1887c7f8271ebab08e81ed125a70c8f7764e1e9;
 0x7b4d12c7e949d4ee6e2e0ea93dc105afbfa277b9373af2d12a6ff64e45356a6;
 0x1b38520ba1c4589fd42014d6e8049acbe95daf2c4c2d910c44ab141a86e21ac8;
 0x1f9ad110bf1bbcba3edb9173790599a653793009ec8ab285cb9567a868e41952;
 0x2e5b599ea8d25fc97e621eae08d130909178d450803edf6e853584304f3bb0ed;
 0x1b15f498744dd45c644224cbc078e921f7c1b3e1af764a8467257d6c069fa18f;
 0x1d4cec7d699719620437c0a48f205caa856cbfee94146fb0d1d8dc66c465f4a4;
 0x173543ba0e2d1b252191c8b9392abd96810103fa3057903aa1697429a9bb9185;
 0x1b9df3514d0b3177ea22b6d61bbba61e6ecc5ef8766404333fcf6f91da0127cb;
 0x2befa98a6a5c83888ab8f22f9504c9db9faee563278a894ce253b34980873ec8;
 0x295db1d483a66191171deb6a0b95d08b843827b02f5e691aaedb0845baa64d77;
 0x16fce7e0da0af20b730d87e50ff3b8153e377304d9d262bc3c1e2b4438d0e189;
 0x1660401c207ebb47773a099e512b117987bc8d102a2ca0a7cff9947e2f2cbd4;
 0x1bde105e9ebf2795607de216e544e9638fb23ef1f598ccc6066a5b1acbbdc1db;
 0x5ff2966cc2aeebb42f6cabc2aff4ba67881a3653168b1da8919ea64188d4a4c;
 0x1de18595180cdece76bc7a389c725303f8114625785e4f8e7cb987366b7d8b50;
 0x2cb13179d6e8a4ad1b9fec37376253cf64386ad905e240575fca86539b272dc6;
 0xb75306c52e9faa2532157457ca751484e5de2cbea41a357481e6be641c4feb1;
 0x4c7855c4b3a6e6db0595c294ad58c4c3a41ab7a671608e04eadf389a77d5dcf;
 0x2596ff7a33d026067f427e76dee78cb0cc93819ab599c3bdf93191bb9797a3c8;
 0x8aa0063dc5903d4aee032268c89e865b3269d7545ddb1084af2479f55225ade;
 0x1548a8bb67459d26258983882563f449a56c01e3df7a608d086eaab22f93708e;
 0xd5ce47fb827e13d9eafa9befefd32eb089ccf1c0275c85946e2dfe1f43e8cc9;
 0x1b5f4423b16a0cb4af1f7bcbdcaffdf51b021924dfab1be7fd33a56647a51999;
 0x18d535b7160e89968c9633cc71fb2d97df3139814c12fdadc1e5a6f7622a7c00;
 0x16a0d6cd63bb6b5ff4c2808707201602da7d6b0f44b701e8393f98db43c24fc7;
 0x232c12d6ce6ac0ab8eaf31cf01f9f8d2cf50d24b18ed216c6292672c8d5b490e;
 0x27fb96c5c58c40aaf14a9cef49cef5a5c0b60471fca8e907c4d56c092d8ba385;
 0x21ad1bddeb6296215e8e20714f3c301769cbb0436139ebe0db55fb961cf97738;
 0x19b16870babade7b8ac30c9e62817064ae98a876c93675b2398533783343e63;
 0x16fdcef57ba6577e0c963d013271e70215c8a3bf9e4a0d6f93be6a4e9faf2d00;
 0x830ce701a93a0d7f92677aa65d53ff28af57c823098c256fc1470b3005f546e;
 0x2295d7c8b14f2ad4cbb0f762a54c58383fb6a8feaf9d4e9bde35b95fe58ca05f;
 0x9b1e43bce3e52d112b238e8f72d93493f41a8620de6e4dc9b52cb5a2a1f3dbf;
 0x87c2f1fe382f705024d1bdcb8fe8adb33b82361d8cb931ddee3f9fafca2e4a2;
 0xb17d752334a51d02c091a68034489d30b3b4c7e7659422e50b32d07a17a10a6;
 0x18d4520269ba2bb7428758e1c74bdbcedf8f058f696da3bd8fafddc3f2543e88;
 0x6d0e15f1f1c2b037bfdcaf6b1e724b26ef28d76640e68110d50e426cafe5688;
 0x29b7bc033acd92ae8a6df93def58d498b79d1de519f6aed8de984fa296d8d9f3;
 0x2cb13179d6e8a4ad1b9fec37376253cf64386ad905e240575fca86539b272dc6;
 0x186d603bc6d93626732b1f85ea4ccac141cc8f45799dd48af4123a4f2e7a13ed;
 0x1e9fb44d51ec4915ed9a5809c50dd0bfe11b4edc69e99befd9ec30604445abc5;
 0xb48f62bf60c1124bd7be4e0b9ee6c66a642918a465fa1a50e1ab500d677cf85;
 0x247318154581bff6dc6333cbc14ae74202b1d419241b047dc891c0f60e68abe3;
 0xb26cbe5ceca89934bce5543f84e42bc739f25f298e556225742d987b0e6c269;
 0xc60ad9c62b74abf92a69f3f0c2559630ac51bc8f84c426130401b7890278a30;
 0x1b0470a9e3485e6cae2769f6a9b7aa5e3b56f101d7be6bb7c91178d594560e44;
 0x264d68f9e933b7f8263a465260aa839011aaa117eb02358945fcce72e0c93e2f;
 0xd93de8429c70415df7229fa233e610689e3145d5346511eaf5b8de2543517d6;
 0x24a99012c1ed7a1245f507ad4a9c8534658a4d1ae47ad653903dfccf66b4403e;
 0x7da99b57c2bfc56693da809691737e832191a765a51a276971f167c3a82ccb6;
 0x1cea1b13af00acb6c1f1596831afbd4be16fc313d954baa221204eb1035a8a1e;
 0x123bfb0630e8aaf56cd3744661919b2a88c0dff13bb0a571aab5253f98bb4762;
 0x1af132231252bfc602eb9d982d46f7981470c1f81d33bc2d50764daa4d0c33d4;
 0x2dba0bc37236d5b612363efeec5db5c4b8dabe365af1de7eabc4307d5d13a0e0;
 0x221ca65c9a1d3b45b69170b26e5a64921485f342c9d1796042a9d691dfa2b626;
 0x497f939c6b45ccc29d57e1291021d7fe4186becb765967766b7ef50e5f2af6f;
 0x20b8117d0bc5b325f5a6985deb0ea6c119add748d4432aaf52f1f18100c4c4cf;
 0x1fa73e129c14d72a4e3d45e1044b4e0237b38cd5f7a44284bc0e35fdce08e666;
 0x19f24a1c686e20b06039e60a1d522f8d521491a40698ea48a43219d401615c11;
 0x21f4738cd989617c3e28dfb8072f349b44fadd5bde90f169420bec4a0a89655e;
 0x14d1cea4227f6d369bc6015328bec36f0dd3cf1d9d2d088b5fe413ea7faef3a2;
 0x2cb13179d6e8a4ad1b9fec37376253cf64386ad905e240575fca86539b272dc6;
 0x985ccba651570f4575a0ed92fc815c4d262c6bf7b880a4a2e9a6f062e0539b7;
 0x21370081514ca3496f035319fa817e42c182855c938b09f5737bd5e0b040d387;
 0x28d51de160b191dfe5213005f019a3873bb60f2b9679a3df65617502d21538d4;
 0x1ccdc75e435b8deeaa4b0c8b715f0831dc225c7538266e90609f6a6285a2bd48;
 0x15ed8a603516e1f5617875a6146dc9c8d511cd100f9ee41a1fbdfd5810408c6b;
 0x1cc5e7a4d7ecbf4bcd15e2c0d54532f2c6f367980d5afe4e148b7bd8137373a4;
 0x2289679ed75bf564bd924ff42f14a4f63663e95822eba74b35f6c58d6ff54ecf;
 0x28a844dce08ee0b8fb55e7df9630e357928dbef92ee9be0c0163b51cd555503a;
 0x2521735424459701359a4c27c2cd0d55baa5380e4f4a06ef897b2ca89bdec56d;
 0x225abd618e11689670409cdb1a66ab70d077cdc0f5efc2b387258f280a24c36c;
 0x4d7a23e3eb7a46679ac5fc1d8a13d1670dbb5f00343cbb20893fc5576120b65;
 0x166f7e2b14c9b1776ef74e4dea3147b014234f58ad5ca5a41f5cc40775185157;
 0x12681987c944d15c132a93d6dfecbe502b5b7ae4daced230eafdb89d3e8d4ee6;
 0xaa7558052b83cea0ddba30060b4b443b3a4f00ef388d98aa6081641e7ab58e3;
 0x2c817b2fd2e5ec32c6bc84f11b3c63197aa4ae8c2f372952bd016162c5d71cb0;
 0x11962159a017e25334049df13f2bd013d77cf18b3decc7f66ff81041dcf354a5;
 0x1d63c9e5c4b133a0511c8624795f54474b2e6e465afd90330f50a44eee9e57b9;
 0x2d82e29c044d1096b8c16734a6f9c726ac5c5b47a199dbd7b1aa0792a16141e2;
 0x1b28d232a19693543110917b0ac82983b78b48fad53f25fa007748f630d524af;
 0x147ba0f7c38d875d1eeee53ee9112b75fb0ae91010332de8f9325aeb85e2e22a;
 0x1ccf269bf476fecbc12491a10b7a031a43c6df180a74fd76340546abe205a7a1;
 0xfe407a56ba91ac174fd49efbb61e8730a4397e8df24abef0666c46e1696f27a;
 0x2cb13179d6e8a4ad1b9fec37376253cf64386ad905e240575fca86539b272dc6;
 0x53ab7883a6bb37977a9f6c04b7430e1f23259c71bb63dbe2bf0fc296793b2b2;
 0xe791a7097b6e2ee5dc314d57432975400f92d69d4ffa60d7c9a004e8a8326c;
 0x4074d5f47b8529c9d8c79f8869dd7e53944046be065d4cf1d9e400cd30e005a;
 0x105b47899898ce40b7b74ce948c42b1a7f1c064c17a5588cab02b9f593b55744;
 0x2514168dc134c9550d7d4c5dd03dd3b6fa0f4c10fc363137f17a1cb71b8dc451;
 0xaf1d61be25cc6a191184e77234542f4946de687cbb08aa8cea91a61ada0548f;
 0x1dd5bea55d34b381ebdc842200ecaa4ffb28b9edc96025a7025da4d28af0c053;
 0x1c39e9f8a25300f88afc1d5aeca648517719f5c2f8977865deddc3da451f739f;
 0x3adf474709643e45b573ffe296c0cf64b0bce9705b91f83fc1092121474942;
 0x2e2bd30c5a414e196095e3e2e7acdf0762c6a54ea74dd82ded60f8e6343c44ef;
 0x2b53a13cc27545adbed481418cbf2bc4db7ac6aecda56492735ea2e9c828e876;
 0xd90f7595963d4c470a559f222fa2b6e9588660c9ab42474fbd3502b14cffc96;
 0x263b73e3488bf2c208876b22bee8e28aefac9d3a4b76768e9ec0b8395d2fcedb;
 0x2a0dbef5edad1d5b0146a0630de8e8588c6e9f8e343ceaeb1e90f1163e93e477;
 0x18c06136a1e2c542dd4cabafbb9232a98301c91bdb294072cef62ea4944b1f78;
 0x1652c71884fab33b816d894c62c6c773cc63179ee35cb7e73a568533547d323e;
 0x24c895fe21900e49b6c1e90825ecacb474a9e919a9d3451e170ef22189f5ab17;
 0xdf80fd4f963e8fec47fd44bc51d94d1a0489477b2963ea46739a99a3ebe343;
 0x1f03fdd86ee29e48309c79e90e0c1225a1ffb47ba0ca25e4e261e17e82567266;
 0x27ce3b368152a24912d9493bd7f75d54666d1633a7f95ad94ef9cb63b72b73ad;
 0x75d95500a93ba86bb52fde581cbbbd7ae1d288b85e9862fdb6a8460cd9a4d04;
 0x2987891ed79215bfdb0513344a736a5faef636e4dc1aafb953a27e60763bff4f;
 0x2cb13179d6e8a4ad1b9fec37376253cf64386ad905e240575fca86539b272dc6;
 0x2fcf686a3213ddf2ab8630b29d271f1c038040c01d6d40917e7665f59c0f411a;
 0x261ea88ea2119c8ee660600c1c26964559b0345f3360be71685620821638be7a;
 0xfe04a27aa636785c583c247067d0fe0328b8732b173b20171573497967d8a02;
 0x2cf0912ac2237a5091ec27db0a7d5284f13bd4630fb6b58f221a68f5f4fe3232;
 0x3041569dd972c73b88e73eccc715d7043f36ce79412db0df57ed902957facf9c;
 0x2a4f9b5c59b09834c07365f58f63ed64038366bd9d17c7016f04505abb878b3c;
 0x1fc17fccc2b1f4d051595c0e4151406c29d2eb02537696aebfb7b85e98371718;
 0x16fc002eaeadbc610d53818fb1a72c47f07e7834b9433e0276eedf4e0cc779c;
 0x2fe0f6bc3242cdc940d4ad67a40328a51da22100cea8628892a20d3680e6d9dc;
 0x43423406385c4db5ea885da5766246096064fc77dda460fe8d8deb97d34ba44;
 0x90ee6fd231f2b7fa73ff9baf6db0a47a0057e62664ddfd9355924242d050e02;
 0x3005c2f73ab58a8cadfadc4dda1e3422d7c0f6ad0fe7a752045ac72001c6d445;
 0xef228d7667c66faed8d7e3c7bbe5925a55d7451df7f51a6afa3bbe0747c1ba9;
 0x2161f7618113ba7d7842db94ad2ef24f21f8a31b4c1124688a2e4dfac810f01;
 0x20f085669bf228d7ba11d93866cb3c268b2e031ddb9697d80cf62628686938e;
 0x294372804d6e2359003c9cdd1677565423edf025a9933d0b25faae3947171bc7;
 0x15d37890f0af5bba4b3abb37bfa5d5e115ef5a4e805505e2cd021c4807ac901b;
 0x287ef1d880b317586e978d5fc8ea277aaa451ee6be1bbb8de5cb447b7db251cd;
 0x5d0ffe0d01c752afbfbc3e2c49f0d34d35ee5198603300d727a11b8e7eed593;
 0x42e5fb819552fb66da7667d664838b4bf65a50c422ab1e9a85b1ff6e92d30d8;
 0x1fce9b344a773117d21974d9c3a070368065377845171e46936cb95a3d38051c;
 0x217e2377d39a2d534ef281f973ae22fe8ec4f87500899431cece3c75c410248;
 0x2cb13179d6e8a4ad1b9fec37376253cf64386ad905e240575fca86539b272dc6;
 0x30073c53bd5375c642148a247e4260a05b56613dcdce4a093e85e10d296999e7;
 0x237c0bac139ca6595c3dbe7f8130d399906ec0710818ff44c05774b479d54fd8;
 0x1f2e23fcd2259faa7cb33a243bd212e89baaead143a7edbe6c6b1c295690db9c;
 0x2ec7439229a284f2c48edbe15599d462b1d073b3a6037e8f7c8020777f26ee4f;
 0x23c268b84e8c118733c2adb6b3b0935ff631f3b47843b112e80cd9ec5b5acc5e;
 0x136b39ab04af56cfda16f3f99411b1c3cbd3ef198b5f056e65718f52fabc7c9;
 0x29358a02315a9f5180f23577b3336be58d4039e6ce4fa251c4cf8618a955d9a4;
 0x29139674f1ed5967476c8dd777624e49bc90890a5c99750922a4725c81105775;
 0x2fce35cabeac14beb49bab9ade7e3811bba9f32b99a78e3ad655b77c473aa32e;
 0x2d0fbcf9cb5fb78fa20bd878ee7e6bdccc2eab0eb7d232741932c0e785301f0c;
 0x2ca38f6f88d6a37b8e126f72a82237850d9f26edc5b577558da58c2e55b0767b;
 0x19e38d09cdb939e187bfb8822e5c2297a897da1f16555a191157bb8a5af115a0;
 0xf61a58b977b2fd7323b48941cc010140e9b7da31271dbf3e4691b767dee7f9;
 0x22b5299787050ae04bf9fb86cfde9589253870bed1a0213b143b33eba1153df4;
 0x2becfc510eced53a873daa537c21d79a1d5071aa734f60553ee809520a9e22a6;
 0x14d5be5c690883ea5b406c10b0120725bf1e4c5de2177267d9e38e9c792bba8b;
 0xdcdc68aaff548dcc7842f194b1b30b604e4df04bca89830c0bc367e7703ddf8;
 0x1b0aa07f9f3f5aedc37e1f7266bdb1ade79a62db3714cdb833d1af86cb89d9d5;
 0x1e7b9c8adc9bee22f859972a13e0213314d43e1829f4f99fbf019de8ef79f3a2;
 0x3d090fdc48ebc009b4cc7ed3546d69ec87dedbc67970dcea6052642e517fe39;
 0x2fedb8119885c38398860a6e6c5db18431e4f0d981a2fa274a36d5c31f9cefaa;
 0xfa5fa0299ea7aeff8d357bd332f13abd6935460588e15adcd0ec76c8dd6750e;
 0x2cb13179d6e8a4ad1b9fec37376253cf64386ad905e240575fca86539b272dc6;
 0x12342a1391a6b59ff25a5c84f352a01a24422046622625d79588a43c40f4ea8f;
 0xe21849b6b4969714a121558331c18a2a8969004cd750c3fec6bdda6384f5a30;
 0x143fa84e95c7893e11c17306bcb7c7a64e395e3fd9f1f4f086ce3594728931d2;
 0x216b7f99cfbd8ab9e124fd7ff4b172c853cf23a2ac95cb41b3a42190f035b144;
 0x18bad0594a462f033d2be7d2151cddabc6cf21ed59510c1e56d080872fb95490;
 0x2c5b49fce206c612947ff5f4a12cf1e4763a3a1f7b9407c328e30b3497d69f3a;
 0x13fbbb66309924fea1153a649786a33fcd8dfb3e4222a3d59393b40ccb39b9a5;
 0x3b44f905e3c8a2b3e7487e0ff0e1277d5abe5e1301c165ed1c9258829622f7c;
 0x56c2fe32c1944e7c9400d0a6ec21aa54cc056562006c48458386c8d92f565ea;
 0x29c47e53143446f7bfc43afb3ee84548b5caa25f4987796415d68e318889ab19;
 0x2e43c52d27448282177163200168574de40c584fe61d4fae5dcae495890217d;
 0x2fcce12507cd0630f06a2992a515f45c2b469f2742e328e07555d22c75e51e40;
 0x1d2e6d9c5e8c220f9402b82ba4ebf641b2173e94ae76eaf7ee5559d43dec7611;
 0xb1d1a4591f233e710a8f245cff5cf759fe0b4e55f46307bbbbf5d4573a860f9;
 0x163aeadf9697fd15898344233a5a30236499b728c6fe54b2534c7c9fc648bb99;
 0x2e3345617de88523b5d09b27c9669fdcb2472c6cc832ae304ff960c0d4a5a348;
 0x1859a9bfd50b4bf8d40885c992654775ce35ec41a77b896206df0ef2281efc08;
 0x1232a777b5141ee4296798cb37ffeca708d0eab3142357e4e917b65e424ec478;
 0x10c4ce967cef015fa466bcf69079f8f23bb2826cfea14c78a3b4509ab2aebd8c;
 0xb980e8a923bd3a2a9d5e9192337f070f18c11a16c809440f426126ac390b7c6;
 0x2b1d91f4222d2984db754e4133fd4060d12c1dbe6158eb34fc1c1fd0f6327b99;
 0x19ca1b4e01a1671c771897b741b03ca691c2df986c339c6f2c6b24663fae3129;
 0x2cb13179d6e8a4ad1b9fec37376253cf64386ad905e240575fca86539b272dc6;
 0x15e4fc48c95a30a9b34e39c7e2e5b23cf96e72dca78d25cbf1d07f6bd1f35269;
 0x2d23fdc4c0c81c5cd12440066758541d7e4b9c6bc29cabaa7bb3217fe5580c65;
 0x1e1db0902c0b9743d3e60f71c53bdbccbb995466f39a9e044074a32086f519a1;
 0x24b7c98c30ccfbd3b3c87479bccd71122f3a41e0eac0c5a82916ad9e1c77ae80;
 0x22ac75fca4d3bb5bf0f9f25bee0293c50901c2d45f4c2e1d19d7433b2771cf91;
 0x2d0777b0c575fc2be9b13118b4bac03bdc856c03c9b7236f61670dac5da95b1b;
 0x2252fa35e811593e627c8d6ffedaa4503728b6d6d9676f2e3270545cd190be5b;
 0x20b37b4ed7445a96acb5891bfe84d9a5b96e8c5a67dd111cc4dcaa8269f4f0a8;
 0x2347986652295db79f804ba06d9551d3e2a6b5a1ae358d94a1d71c34f36fe0c5;
 0x19384ebe245dce94d5e68070e3114b1c5be9123e2a3728ac3af9d340058a35e7;
 0x1fc74a00232310ce6af9e233a4934550b0f3ef063f221a3dab64c2d907138a35;
 0x104721a9a6568d9e67db56ecc61ee18623e89e26a47b9e9e44f8977da8a7c16c;
 0x16d9fd4e5dcf75863f3ab7971dd72de63e09cf77787931b0868a5c15be47c163;
 0x392be8203347a51c9157a219aaa6787f54494b61e62c54e1c91bd995addd474;
 0x1728a3905a9130b0f570af0165bd2d00dea61d61f7d103ff7c13172b179099c7;
 0x145f03cb3abe12eb5f0cac73c11dba2bbcf94c72f2e30e22193a33906507934;
 0x87ae2a368db5f3d666730029fa0ae971b6f50432881c9c0d86f5f3aa716b842;
 0xe386543bef330d6c3cc14294ad86e2408894da265fcc041225196ab8064c737;
 0x1faaf3ab79da2b30406f111cd42aa6fcf187b19448b18f4617712bb95aea6ab2;
 0x1c68410bc6f75d9d773c5cc57af29ab138e98480e1a0de15195e64afdec8c525;
 0x5b529d09da83d895ddf1aaa9849f98955d81280eb9f4b71cb7694b2a21ecc0b;
 0x5b8ef58138e7c3284d9afc4541e7f291d87b2e26b50b7feeb75cd859e3ddcc7;
 0x2cb13179d6e8a4ad1b9fec37376253cf64386ad905e240575fca86539b272dc6;
 0xd2abe6bb0c097deeeb3f2162b41f9e969035ad6ca31e71eaaebaa590edae407;
 0x1909ae6f86d6d43332fd32caf83152de39aac3f2701441302012d3b4349c458;
 0x2f0ee3a8676b72e7e5ef4794aedc88051f0911ae43d036449d7c07fcf2f5dfe1;
 0x1e378a1fb4fb0b0e168121f86be8de342265f0d9443de37ff6e24a8f31c63003;
 0x2583b1b0912cdf162a046daec4856ba80ec6df1f1fa080101ccfd225176a0e8b;
 0x11d9e38aabbe2391dcb7dd17706edc894dea224f6cbccef182edae298800e746;
 0x1d486e5b90e3f3c789830bee968e6d544b54031477fdc8c9d002d6f9cefd598f;
 0x234434965f05028a4f5330a590ab06619914476348aeb87a1ebbafa1e568eb18;
 0x3eb55944fa1e36fd16239f7b3ddf108ff5f27955e2f386139493ea05c1bf509;
 0x22d683ecc91253d08e6e535a4b62627738c2cb877d2b125aa9b190b3ed2ed9a;
 0xff142864b0e14d2734c2ed0642a474fc1f0116d7e1c5dec18bdceacb2721958;
 0x1f930557a284998225f5f4e4dfbcf5ac211f1b12d91b0562ed3d63285d7a714a;
 0x18e8222f6907da5745eeb9cd4a9e62f28b8b710aa85fe729f9ea73a3ef0099d;
 0x180e924d757d0be4066feb146ed56212e38acf9df4957432653f370f905b8b07;
 0x2f7d0715d1391190e7b14a1242b6799eac3142e21f08ca02c21755eae77a55bc;
 0x2283ed8d5e6f9470b3f4f49a771061e4a4fc7dac683defcc0348a8862c6ce71;
 0x21f60efb132b62909990b9f994f381a9c02abc3ccb54c5c8e8c9c5664c6913d6;
 0x1cde82acee60b84424e9bcee49a5464ee05d1cf0b70469208a675635ac715495;
 0x118a24510a2153f818f0a996c87de913587805f16cdb1939d9406941f958e8e1;
 0x164567b0de16b7a5550fca229bac7cb0779524325e4ca5e78a86078881660264;
 0x188ff303194112a7034527cc9dd0b4deb0960c9c106ce115178dd7087e4e8c02;
 0x83d832adf9bb4a25f686abeda9f16ebf53263dcf9ef4311781d09920d094ead].
