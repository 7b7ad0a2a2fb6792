(** * Certificates for multiples of the basepoint

    Generated by tools/gengroup.py.  See GroupCheck.v for their meaning.      *)

From Coq Require Import ZArith List.
Import ListNotations.
Open Scope Z_scope.

(** Doubling of the running power and addition of it to the accumulator (negated
    if the flag is set): new coordinates and quotients by p. *)
Inductive step : Set :=
| Dbl (x y q1 q2 : Z)
| AddD (neg : bool) (x y t q0 q1 q2 : Z).

(** Affine coordinates of a table entry as the sum of the previous one and 2B. *)
Inductive tentry : Set := TE (x y t q0 q1 q2 qx qy qt : Z).

Definition order_cert : list step := [
  AddD true 0x3be56f8d4026a7ad61107e0866419ed9438c1810ab6cfccac71676de9cb89a5 0x9999999999999999999999999999999a61f62b8c82e2ae701a4a1dc9e2d18c2 0x0 0x0 0x1ed59 0x0;
  Dbl 0xc8d7fdc416cfbc1157885531097414f8af200cd19d3f516398e0b11963be14b 0x9749eefb81dd61065204de4a9eb666b94e523aece6372829e98959f01c65f65 (-0x2d8d4637f36bc560c7a3a2abb8b90feee460abd563ee276b8471ab9ed7dd3893609135683b05d6953986f78aa4d6ca78c5781a9e2330078467c0e78a49d604) 0x22500b815d8adc05cd15e861ca973d73cb9fa8551819c88e5408be27e4611838eac7775b63554634d108394afad959610e08dac5ff11cc7de34a37a31e56ba;
  Dbl 0xb16badf2d4515b22c47cc3ac664a85b43599598cc348046d1afcf6be2206868 0x55831272090ee8d9606aeea3b789edc4a1c3c92220c864ae2be75793186bda8 (-0x2f3da37bad958acf3b5a659e2bf4a1f73fe8cfa73bb8a32e0a7831eee1dd04419fc93e14aa08fbc794651b6387fa71fd9eb5615ab3a7eccc53e51b6506b326) 0x16c4cf8a7e8231094fae83d0374aa58ac07e5ecaa69cfcbb3793400a6c1f36316521c6c73b0bcd654b5b8725978e34cb392ab8fd921229c926e6349f0bdcb6;
  AddD false 0x333a69d0df89f4300b74caa6e09b2423133bc623e6ab7a172e2e4376a3056b5 0x52d28740bad278414dbe63d6e481527e00b1163e97448ca2676efebc1f56580 0x41f35a3f544570fc29011ee7748393c0c9d490579293a8c6deca59a54f1ed65 0x851d0bde7a7641dcdd09fbb774dde2147c30772b08a3bf5a1ab4b2cdb2c236611fe6fc1338179270ba99c529ddb6b2728eb08c5c4155fcee8a64bb3d19cfe6f53c39d88c01e6ad18eef5a00fcce51a30094078964a7dc3385a196b8b1427 (-0x10d2362995cce986a185e8b277bb2a976621d07240bf4ee6320c1d670b1481eb4b2f) (-0x89c15ace98782919303f8b4a098faa33b94a729a703b9c6c48974436d6602950678);
  Dbl 0xc906871e1ddce0c748d1c5219e1941d03b31c622e76ab65ad1764586dc8a47b 0xf8f20f31908e14993d443cc7914b228c1af5c0b59ec51b53bdb9d519e21183b (-0x4a20510a786ef03aca5be12774f44181d98fb764d6a34df41337f77f8ed2fad4e5f9a9a84dde569c72c5e5fc0f38f51ba22cfe9e4634d9a6b4e0e99ddd1e80) 0x5bcbda15202c99076a6d95dba76ae5760cfafebf4b74b2f017be9c04bb2741ac45e3a6b0a145bc86b1c4ccf9bf1ad135afcc7d436354040c8c72585cd3490e;
  Dbl 0x45f6e95a6f73f2a20c7fa21dda822eca5b315bfb414b2ba239fefb050c8fdb2 0x4902645b38974cef82d748d5132e2430ae951df250dfa775b06ae6b20d7e376 0x17050ac6d6e1f0b679c6474f391016de37fcdbb821b5d1ab1f1f8f9e85185d0aaec0a3786c5213161c834a235fc635402c6957e0bb8f64383366b7ea932fc6 (-0x180581aa2524c7c6827fce4a15c703e1239ad01bd62236e4121caa4173f03d2c7d01730e0e4a15563e39c829ad65312f08b2916525863bc3d736498fd5771e);
  Dbl 0x5d36f535cc306a210911e57c820c0c33683fb65e113c00b552a7f94f0190c07 0x3827fe3d33ee1b0d8a3fa7e4541baf2f0e165a8b7f64b0e8cb09477fbdb5dce 0x9e8373a877bf3f3f7ae6533f2fbc05d993711d7cec618209e41c21d675cf79d4a44fea48609f1f22cb7f15e3436e62cd3707270a6caacf57a1870b195e68 (-0x5f7eac34c5887d8437b91d1d5993325b354b47b6968c74bb6d372d80907928afcaa7186bb41c2190ea70160d6614ad4ff30d36f1f449a4dfa8f3ce6c96fc);
  AddD true 0xa00e26ddfde5a41b25a78f3fc77c3489becc48c47a261df864638b7ba634d1e 0x74a26ab0fbcfc79af5820e2dacc3073f148d9bdf8292776fc016ee4239e5f49 0xcf66340bb3232212de72cb4e1a494064452705ac094dbf5926546ca279e333f (-0x152e3dc654f93393e33feb44cac04a28edb073bc3389a2c169bb465b40650a5b4760d9c1c6feb930a2cebe2087745564f4a98f62555029e80955a9a7526afb4a1cff170ba7fe1fcc8e1c1bb34f0a874597b5b16e4860d2cc83fa2cfb495b) (-0xd56d7af679ead61b76ffff6c09389cf0d94775b1467d664bff9f04c0c92b86f6858) 0xb708536bca2cc9d3cd37732f29873d67bf68558734d479ea995f14b9cdb42526454;
  Dbl 0x9559a6f5dd84a72ce8ad6f7edcf98e2f4162d49886751b41390c56b7c0f1d35 0x106aafe64d0cae3da1ea1b166174455ef5c193e65bde9031b48bbb0c7226d2b (-0xc9d6155617bcf01f92d35c7877e20a07448014a7b12868ad12c9596b54b0581fca8a06070b71db3dfd18606ddd66c3a4770810aacfd6269bc45f7eec8b989) 0x162fa29630c145e9e463a49ed2efacf03b2a5277cd3b5f4353b00ea76fb831dda2e04cd0af8a025a8141a6b2774d78861207d98a71a0e680e9b2c16cdae70;
  Dbl 0x14aa0ab31d7d9a50819512c332f5f90cadcfa138b967c7480466404f93b994a 0xb3e28900ed2a603ea8fb616e054c1f38b65bb921751fc120868b2108bfb794d (-0x6f2bc568e6f22572977cc585b0c08de73146ba84112f985f6b269c978b59500d66b26dded25562512ec7820d81ddd4efd30ef6d0292d6385fdc53f39d1ec6) 0x3c7c2303c789cec0e58b7cb66270969bcbdffcb6001b47bac530dccb11cec12de6e06e09a6e0c9472cc1a0fa42400510252da8b7e3121f1e89a0894a08b4c8;
  AddD false 0xdceed12e1ad4df1cc54eecd1021dc86280af908074c052e87759560f8828223 0xe63d0ca6827288518304064f8f54cd7afefa5c906eb04a8f52c0aed628be00 0x532611fd45628105a474da65f7207078fc2e328cb595fe9017d4b9f3a81b5da 0x422d74a6c6c1a3a6697dfe401cf0bff491ebb851e6f43fbe891e52af604a6a7fbd30bbf7b911c1c078405d7349492f548a918aae9abde2dccc33808866cd0cfce1439dec16d4cbf3034a771a6d8e2570aba9ba5795c24fe3f3e79423898a (-0x1752bd1204c2f52196c7a34d1917107aa9f73aa5d68a86723a58c1e1bfd5a1461b39) (-0xadd4ec84e86cbdfff724707a1b784e2060e7d85621119cff3241501af8f54191fbd);
  Dbl 0xc0a75186e1787f2839b47b431d2485eeac18d7b5e638244b916523cf49f1c1e 0xe2f86d8d5632c555deb5c4720c08f3f9b70456a3f9c1e65708d9838aeaea55e 0x5dde3328666732d46b2bcc165627445ac18b1e80c92bf8876a5d71296cfd5a1900014c29bb4a0c4371bab27d45fde5dbc50415964b8bf03a47bbce73be269a (-0x6e96a179db4f25d4faecc4b7d505f6868cd179e5e4cceecd52e4c7387f637eb47c9552315e3f56f159e1c98a9b697de8888bdcf227164a2bede8e7b3c208e3);
  Dbl 0x1c3a35834a97639abfb1a6021f7e30fa7423174e536e05307c7680a3fe9ae03 0x52863898bd51614345bf4a9fc60b39cf997988aaa4054eaeeccbaed16422c3e 0x633cefbed8a5b63dc8a4c748831fa9168fabceab19fa7ad644774a6233c6af2f7449bc191acd680286333f699c0a67f06b8bcbe3e2da3c1efe07d66876bd8 (-0x12220bc09098791cd41fe65137a1be7693be1ab4c2ca9493012f8c2a76b49ff28f353cbc3cdba0e63f94ac553074d274177b9efe104f3a9fbccfbd8b89c83c);
  Dbl 0x5356137b5f2836c48c27b36a92b4e182fbcbb0cfa2891dae6433d8c975e8b70 0xdd63bf352f7eada81c9604da0165e598bd803217cb1092f1c1e74ebf84b12a 0x7a594649e787925b2672a5c18cbce63361ecf9a8deae0be730671a5e183a665461264fee81d89d45e27f05c3b38196ad607d6e560487485e817910046e74c (-0x1450791e9c322eb37fc646569388fb6b0223aaf1dc9203e04207936a91615d79bd5abd249fe19fd34767f0cd9e6df573e4ee905dbbd497599f7097dacbda3);
  Dbl 0xd64b48946bd502ea37e0003101628cc1cca099cb9eb93b19ee7601ee53058b 0xfdb6cb07c465ebe9eacf01ea8cc0ae05c7ef3fc1221aae3092c70dd7f3a3df (-0x16153c847943f8ea6ed82389261183cf3c0d01c19a59ca7e61bc3f1d72e95684524ebc3f1698f9e433d31b8a227f5013cfff8f281fa83f5022e381d7d6f44) 0x1a252a0308c58d8192950eb60b5a148519c3ba43ca0c7814cd0bc7a22d3a3992342f76472be4ddb69a63ad2646cd9765480b320ea6c034d4e5b5af9ff4f76;
  AddD false 0x33ec8e365997e34237c12b11cbbf4e78197ee6b414b862c4c772cddcb0b749c 0x125be9c9226d561afd719c849c07c7e9861e7a98cd68764e3339d61a67c06a2 0xd823419a234ef6f2bbe904e1d012a81bb07043b2546c1a64fe7da22e14e3dae 0xa4d80d26e72805fa53ef97fb1f43bd94faf1492cfcb016d038dca4a1bc6df430c50e368b665212e7c10316dbde932f06e683e6a04ba5f0ef8106b3432ad4840a75199ef940db1d9d6c9a7370c91f9675f2146acf9b076dbeb0218d6f5a (-0x704e8066ad657e5571898943583736b46f0261e2b99201599a758c35fc3117812bd) 0x5e0c3cb2b3afe26aa964b347a98172207fec89750389525351bf1649e609959fdd;
  Dbl 0xf1ae10bd80d2a4c6c590381f408adec4cd8c0989d74701a81fe4b903d1095c1 0x803dfebe597eb2a727ebc3692667135bff28c70ca864a4cd8c6017da09633fa 0x4408df99fc4191ba06555d392bd6fe91555d1a43713d8b30bff7fb138b65bb380c35e4923634412dac6638af4836096ce14c4b3e6facb95eb83f0f219956 (-0x2419e1e646409afed1294959f64f6fa1d7a6740498cf1646733a315d4b1f2193f0458dbc4e7db3f03da3802cb757a2f2c0ca8daeba52a24181adbda89aae);
  Dbl 0xce7b598778a5e1e7f999baf6cdb01cade77dc0e517b8e18b8150764ba790e2e 0xb190a457369d951e2526acdf7e921b888726f1e7d9d02f5f7954231a667d46d (-0x8436325dd6c174615c49d505d2671303c8f2a86bf79a06f0120f93487c0552943f4d799294808f1a4b7214075b2b0061f648b3a3abd3d6c68c7afa48413112) 0x71b2317769acc641caf1b7be434b2da483bba1caf93c8fc204a38779fefc3770c0d5931fd37c6882d269826fb2649804aa4407c8e71d20ffa57a24cba9d946;
  Dbl 0xc5fdb3e253c64e85a59e8c4fef22fc58259ce7e57077668f924beb0afe5db5d 0xb4ce9019562c3f6b81ff4808f230c8f414bfa6cd3112301e8ee2a5e22161cfe (-0x218cf4bef226c8da5236e04ccb73d98dbd831c8cb0aceba02da412cc9649605f2fecc05a70771030ea540319fc69660cde8a8acd89ae0c22c085a115d72247) 0x1ea37fb8c21df75630bef015f696121afbe7319d95ff04932c509199ae682e85112a889ce0faa1165e92fa9738a270fe9b336a59df633d76bb0649b460a7dd;
  AddD true 0xfe0465f436014a7524c8832f457423cf057a52478d1ab48f4b76cde2dc437e6 0x4b015b98829a846f829a9ebf1e5e40a7c189956613c6902d609a5f6962d1427 0xabc1dee56235944be3aa4c42a0173dbac1be1120740f002a70299244067baed (-0x208b6af95e6de706237fd74fe5ea8656655b6e9f2922d2fbc2b932329f109cc7cb065b2750ebd2734fede6a7f19e79d67da4784c6ad9e954ab140aff10264929abc48eb960780f6dcca63536f935ec896dae26ce34e995584fd370ab0091) (-0x173be7f3dc59591fa0d3c57190e5e213e76b4e8bea03b7264a02a1a9aea99c0e7df8) 0x9561800ecfe3cc5379f683cdd10439241b8be01341f4e64e7609e07d97afece3583;
  Dbl 0x26ee462862e0f9939a4cb231df37ae1c92dafc4ac388818d9a24325810a7df7 0x9290ba9453c9e9c1b231ffc0f8312a372a0d76f4e68e8626d2e33508bcddb37 (-0x3dde49deafe26302a9fa917ec1c152b00773e69f4038174af80d0d422ef96ba42255c796bb961f85bdf0cba419b128a13f56e275a687e184e1c7f1f2f153b) 0xe8eb832ddc838187d7852fc1678b46859c49e4fc8e87104531bff7a19ada01d03d97f34516a22eb9b56129cffae8f1347d25998f1934f171f650bbc4b1e44;
  Dbl 0x62da221a0695dca970ab8bdd0791e9a9802fd6bdf4d136e5fe7e4606fbd9927 0xa0b8915899f26f0b83620e428f43bb7f0ffc5a35952f2397debb9c2525dbef6 0x1e1d9c9ededfb20da97c15b312e91140b83931096b9dac3850438940f3338c894946644fa4ad83668e4aa98ff47cc2bd001e25404a2124d34c210eaa98b216 (-0x30f6da3815f8de23ce7b315ee21eb47d1aaeb78b96ac452213a65ad8ce88d11981f50902b32b324167a058f6d2039b25455e94a9dcae38166d9ac60967f74e);
  Dbl 0x8662b194725cfd54f1d1fda275b0f64138db9e78075150314ec56e53a488aae 0x468c2e936f2c2ab8913e743c9cbe144c98dfd292c779b2ed46310a8c9585e4 0x20ee53a62cfc05ad7919f6d2d4ce02b433f6d9630cb6a04eb1ef01d8c880d1e34715c9146f0d905701717055de79802cab4787e281a134ade150e7b05e3b4e (-0x11499e9d48fa39c305ac35d960a3dbcf3cc10d992367fc98d11e3c1e603cc4089b2ec9baa9e9fd9ec72d7345dce5df9d3d1a8c9397467af73d60312b70cbd);
  Dbl 0x7c4c814309333ecfd2353cded7c1d80242b1034bcffc12c4930afe42d35f976 0xc7a5c69e4faf4800f6cdfeecd8a60abe294610dd33cd32843fecd905a9101da (-0x22373299dac93776d5fb444ce2dfd0a14a8e0c413f5788429eda2a1d83d032b494aa516d971d7a6a7aa6874f1d11ec382b86743d1270e214d945d90dc90288) 0x36f4ef780fe45cf54c0eadd1d8c66df4a0aefd0fcbeafca2dc9804a7e82edaa17110213bb5d0b16471ccc11ea4b73a5795fd265045f9fa537fe0f1f6fbde48;
  Dbl 0xc8bcb4d74159a2c5c38f281cc335ee978d91a4e9b75aa9ff46b373895d828dd 0x2277fae2be635d139177953203a901c9af9942084c2c967fe78ab478590f627 0x4ac3c5c742ef6dfe339ce21e354aac7c84a1db433d90593ea0b470cd3505dc32566d54adbf4f6cdd1ea4b6a237fac1460c3de3a56b3ab2c55515c8df4b2968 (-0xcd67fefa9de69b779ee33f160c1751728d90935079b3664efc3706b9fe6dfdf8cca7761794bedea90ce8daa0b52098d2c08d3836814da51fc964682f9e922);
  Dbl 0x248d815743852c3c754f86d61510d51c06c9b0d1c1664268e666f22e8ab8a0f 0x12d457295d4f64fc5ba876621fbb1d3d61c9598eca7009d4133c1c3b2f18682 (-0x15cfe7d56f92cdd4f313aced922e9dadad5de0aeb054d1f05fb34055e2aee49f343e3e1bfab219860a06020708a5af29ef839108a542d4429f0dd970a67436) 0xb3c714a950d0aa6e3ffecb54a9fc60949a4b4287364aa5f0aebfa1029df568df063d265e09a1b6581dc4941cc17ac809720d2357e0a4969630ac2ba16c6a2;
  Dbl 0x9c53623886743754c6efa6d546da03a0fae55e2cb765d70f766144b8540c18a 0xf6395d2fead6c2f6140ede050deb38a3333b7b8794bb81b6729f399f459c1ec (-0x257625e99b820c0f1121697fe0a786dc46d7d933468f7005d2176d13d0eaf57048c9e1f8eba7dc9e2fcdfea04fffa80aa8eb690d718a2e9d3d772c9ec5116) 0x3b01299d5c08a30c28b13dd955eb4160e8ebca43c29faa94e7eec5c1b7c4aafb9c66b0c226999212ea5f8e86cf4e63a9ae5e8ff48d94917fa8f97c52d1c8b;
  AddD true 0x7e8f2508ebf77126dd77f4a4f3037f806219caad016abb7ed2a7b2b99f6252e 0xad08f9cded23a8fc71312968c32d55712cf1c950673a25f78255199060b6275 0xbb527cebd009c9ada8f1d0f785e3fb0e43064714aa244c27ec5de003b4976f4 (-0x2bb62793ec26bb61ef0911f627e532a7f712a3e4a7b600fd41d2222d5d25eedf93fddbbf34f164a2ad8c1ef23eea0840e2df343d408d80e430864335c9841463e6f1ece64ba11950dd41f2e9e65a99e7fa56dc8524d32896a03cfde12bb34) (-0x23107fdf48de1b48348d501a6e72cd58c46101b4b1df7bdf852c9902445f413c1544) 0x193e76d5cfe055cd77aebde21916ca51103244d497b56b4c69b8fb98de1215f8f789;
  Dbl 0x236570b43b038110040429168f00470e1873d0832a3d4ee1c97c6f804f63040 0xe4382ba2c76ac00e36dc951aaf59ad81c780fff2dce2a4b7d7ce91239e2d46f 0x138bab9721355db127b283e4311eda06b4d984447fc7ac1804f7b0828c1b0684f0581daf5eea93db5823f9c56127f4db167afe47cbd2f7348f1a606467b0d0 (-0x7e05758ede3813ea5b4513f4fec67d1b1f5958cf71dc2d0144e1aaa56eecddf234274dd95ef82e9c6e13be0da0896d4df8d181a44ac5d63f5e60a64f15f292);
  Dbl 0x8253d9c4dab357235e784e1c4072a79cf214dd7e5b7da54229213cb48e43e78 0x746ae1fb6ad9ad6ca98b4b8c489715091a1a5caf743ce5a906958e86d6ae3dc 0x6515c2452da39babc17e81a72263101c39aad896cc8e11f0745cabc7c29e56342ec73634912aeec9fecc865f98cb18213e63bbd54d5b4d813b8cf7e2f37ed8 (-0x5a4bca9b35e316077a3703d753cb969ee7afe9c796ba6e082bfdbdf86e82a66021e7aab0b6fc5b5a7a5f14ea44ffdf1ece8b62cd6c48b5979ca43d44392039);
  AddD true 0xc23b3c26bb9f47ff6d8726baf10327d87e6e510cd9e4630a9d0463edf1ad4e7 0x641c7b779809b99ae8087458e7b5353f828e6ff9fc23f0e60d67485cbc8b688 0xb0332cecc1bea7cda99a7b6da62db4033a15d5923d245f4cdeb841977aa9b95 (-0x13cdef01d35df391c437169ebb005499bb09e36dce754ee341acd830654ab37c8f3512e3244a7d01b2a362b6bc1368d35d1e28d65e4481c7390e3c61079c2e158c8874aacaa805b2a3522c3e5597e94f7545350f8d81e539235603ae35f09) (-0xc6c78e438b5d0dee62e0a7253c4425d57c673cbd06fa9a002a08cfc0d16dfd2aaed) 0x694f4e2faa833a802468e1f5dfb872729cabd89ad3443dc1919f5c4b9a91545ca9c;
  Dbl 0x418ffd932a0a7fd5e155be769e63f22389a5221ea8b9a91cfb4f341cb8ada75 0x2a216d219f25357ef628765a007b19bcae872524e53d2ef1d4b243f1bb6bffd (-0x36f0189c891ad4a740895ab932e7cae26e1695eafb98edb387bda0c25983b38a35e68f93242deb4959129b3d8c58aa1343897e4a157752c4559197de479f0) 0x234d9ddd01a8b15c9e9255b2e3e137ca4c28f1b911af110180da41b10782e56ae628cc1ae0b4d1bcf7ea102f7f62deaf61cf9c3debbfe096fefef63979e42;
  Dbl 0xa4e8ddd3851721e594640cf8b11b3a883c284d769cc62d0af3f1016d7bf61a3 0xd8a50c6e046529a842fe83e1032712eb58ad0aba1799459b66197d586113ccb (-0x6598d7736b9c82842267c25132dcae53ee3c33550751e49db4f79fe3e48e42159870dd240a77420be6b4df7e7bc429e5d6e329355668c10d318140b49e39a) 0x85784724aafb8a51728adb4ce3a84f83b1ce9513293bf7bddb5d4caf9be53959a1a44f3bfe3e4730cdb1dbba819ee44112190b7550a6b76d0c1fd95db06f4;
  AddD true 0xf4b0acf8340c4bea7aa93819f78b45e05ed2b26c8c05b5b6afa64f83544dd54 0xf653d66c88024e68c55d4d20a35cfdd191cc0a0dd900b245375ef48c3d2f895 0x52ff006265d3257c520e858b4ebc28f7943876d76d1a1ded793bee1f076cda8 (-0x296842b8deba8fca6f07cff123acf3ccfc5e24ece40c9e49bff4e7c8676747c6d8885969e3a9d9c9cb9f9b7e20c0923f5d0f6ab0da9a4bdeeb9d04125600225e8973664d86b24660f07df1a70dc3673742d915c476364145ecc39623445e0) (-0x1595d6941f548e50dfc7ceea82e85a3ffe57383e9a9fa8ee226c9956067423b544dd) 0xe7c11f62327e504d657bda663dbf1cb3d541b7ea012c82365a774434711dd69ca8a;
  Dbl 0x22a1040e1ee03f924e6235b4583f851231b03ecb9a17b5a91e17365a7a919b2 0x8f0c138d7e55cd158d493a803570bb92cf208e145777f039e3af6b9bc32b733 0xa6e2f15d3df6be25f1b3b1da2e81470d4340e9391a12d747b816e04474e3c174a87234bfff09d8667f4026660310cf4a01442fc7aa2bd9ca7443837fc1296 (-0x2b1623134870323bceefb5fa6f797cac8877030f1cc3b471d108c02276964e438f388209061f77c64ca8538febfb3c6ca2fd4a4e243b49f0011cd099a4c91c);
  Dbl 0x427ba68df5a81928b294b5c3bbca929be68e2545a9ec07aa5b508d36c6963fd 0xd5d24785a10710b927a09b4f717c7a6dc5de2192a1f628096887d94d6ef06e0 0x138aac0e5267e472328e749420814c2edae99d665134dd03e8b3b8a80dcb4d3679a06d4928faf879a54fa5e061d79596dceddb088477c09346d3dc2222a2d9 (-0x3ed97fea29edbacac8717ff83ffdaf05f6e2241af0167152c66dd8bc862f01c3915ccbd44219af76ae4ebced548dc3029aa94a3bea27cef0461e351813d721);
  AddD true 0x2e616712327b987bbf5184a061e56ab650a49e916a8f88654e3639583a5bc9e 0x6f5346757ace5583f283041da282b809dcfc8dbd5d25faedc138635c4ebfb04 0xddd4a7e5dcc99f3dd5308eca84f17d39f7c08bf25c5f3d26a542479969b9d4d (-0x33121582689c9ee23efc0b14ca2413e2ada526f3276c72c7c2c974875ecfeeb054a56a5eb5db63397cefb2d3b5699a1ed5da985d390c7bc93b4da2a716e35bc911f05def2cd0ad956c18f4b229112f00af40a1aaff9f6e853641103525a61) (-0x15c075d5ca51e204f76465d993e894491c6800a81c1ac6719d2947c52ef0c9cc200d) (-0x58215ec6802a040c9e03cd4e23697c5419b0355985e0d7f0a74cef6a52066c09598);
  Dbl 0xa3adaaef2c003119cb0878fb896a4c146774b2a041dc2de6243d98d250c0298 0xe74efbaeec3caaabc981db6c8da99c9ebfc6fd1f3be06b41873cb14fc9bf8c5 0x6725ac5bc2cca123053019d7c731f895931da5e1fb4fa521fda5181e013da640c2e6ec2481e1ff7a205818a187191bb48de69b189025a08740a77780540c88 (-0x91c43629da5a5e88475639c30583137c4cba4d2cd1511cca71876b38ff35c2fa65ae0b86e2497ed49ea8ad26cd5954da39d00a50dd79047da8ec1194ec979a);
  Dbl 0x3337439b9b97aa40d237d49e0d589863a3b9c84eeb991c504727e461905078e 0x56a26a7be5044b3094c7b2e45bd057790ed81ac25a3ad2878a57c89352b557c 0x14e042b2652e71d9b1360ce1624914c45d9c6ab51ed7bb7234600ed62e4e699371868213636a64601384dd65e7b8c849ef364e9af20fdd8eb33ea915648866 (-0x23501b724c65107622f1b02fb3591c2899035e6d764175343177a5d246a8c38ff295fa6188b64ceff1e76f9f8b7376e930d625551f523a2540ee8ba16fe151);
  Dbl 0x3bf05e5f22a451179e2cfbbe57be21d25d66ae51714c873631a944c5cda741a 0xf0eb78e8917b330446a98f18464b31090f3b43bfb6e359bb032d83fcdb61d13 0x4772977a5f64a773fa5ae8453996833ef8d4b87e6967f49d575507d4ee0c9b04d016578249f1cee62c90a28596c4c4fefb3850a32f782c4efef437d658fc8 (-0x11f2d95099f3e3fe8ce69ce6c37f1a946f2c116e09892e593ccbf8e248ba6ac50acd2513f0e2ae27ae8b4ae2ca8ef2dab2e13855a24321415f44682921a05a);
  Dbl 0x3532716c311f9885c34a1e42668682d4c2ad1a86d62a7a19b02c37c2ce548ea 0x1d6cb03154ac7c80a464591fba8fa150099b51324d2de607a5d39b97fdc05b7 0x2c32b1fbc683a365e47a34e048721794e5525c7c17c8ca69b88b57d5af78915f0f7ed727f4a24a386bcd175388d03e165a29d81ba640619799fa2dfa1e0a4e (-0x18726e1192e04de4aa61b024978395cde22ab92c127869fc1b6ab653adc9b13ab6bce18b360970eb6c882d049b8424c8a75c2ecb205c01b6a8d7934238f7fa);
  AddD true 0x963a1ca04248b2bbd827fd6ecf8c337f190ce1c162bbbc110029d55e64f785e 0xeabae28335978c46b202abe28b8d0098d692d3dae8d786e4b321cd5302ad760 0xd4a076db1dc8ef256d775c8b58c4148fc824c6cf653ef8b8ec46601495d931e (-0x7b52e057a5ec038f4ed0ee97487fe8ef80a63a3742c5817b4d3d547618bb02b91f4cc09a20f21f70c5b6904034c12c61ba819bf540bab7bffb13f97a61c39e6a221a01ddc9448ddae99b18f687aa12cecb033616439aaa28e0cc5b481e6) (-0xce25e867d02624d5584f0486863dc491de6ea47eaf99018be65ce49af178564739c) 0x171a0ac078cd76947a2ebb84401fec07aac321470cc0c4a9dfc5fdf46cfa1e082830;
  Dbl 0xa522c5c9cb9de99dbb8bdfa4f6b42bc3561246868d752037fbf7a1dd425aad2 0xb7be834d6ad96eb20ee6f9908afb83a93dc76f6eacf927437b7938d1721254f (-0x4f2faaa2974b8aa946388a4cfb76a17385cb163b3eee274c267aa970f9e020383ab2457576acbbf2659fd7b9c2a134a9569ff6e3ca98f04dcf733a95c226a) 0x581bfb9f80410e30b92452b7d6313db7c989ef104cad05769085d39cea247858ab6a59c3bfab5f9d111350b26f2e516ec89c799341fd5400faf1db8df161e;
  Dbl 0x6929de091cb0e02f4ae9ba48040574aada3a637ca0cfc95e81f726631a3b59c 0x172a85d689e153eba75d0d116ad926b0b98fbc03483859539f64a06b8a1aaef 0xa6aeab0cdfb3638a151d42dded2f83a09cd8471cdf89fb32ecf603df25905c64ad6df5a0739bacce73344bba93ef1bbe994b3b89bfe6f8f7e879d2a4a6b50 (-0x24b7c5369ade29e5da4e8912f145420198d89ad7c4a6bd5371535ed1b9fe09fe1c5077efc71ed0cebd4d3e8c61893f011271c04f76cf830d6de90044f8802);
  Dbl 0x1c185092a72f891298ca8ad01f6ea6263b6079a66a4b7c569f5cf8bfa81eb24 0xd8053c841f58f7e6c8a7cb83b5eb538f327565237a30b853e1f767a3f0df0d4 (-0x482d31d364c0977d839cef182de2637a5b4858cba7e9ce4c802868bdd2450fe189e67cf845ac82ac195c2559ced308f1427a845fe2d6658cf40ee762196f4) 0x22af5f01a7dbdf27011ab181c6e00d5783203335b6ef2a647e79ea169bb23988366742d87376e8b79617513b47d2d40619779605fda9b4e0b0b8604be2708f;
  Dbl 0xc6cabc67091aa1c37a95fe46203efd688a93071178dd78d730056b4c174995f 0xf8debf57d47fb6efd588ab3fa133f0f728d063391b5284905f2b2a5576cc467 0x8b27c14cd6c59bc2daf394ec0106834310ae0ff52632f55d36b9d06d923b948a94c124ca4b9528ae5c0e2fd5e4b95e5547caee98cd4abe8f69c55bf9859560 (-0xae35d2d4a4cd94cd8713ea8666db19598ff1b52ef06cba3258a711f7443192aec73581e116b33509767ee97b9c4b09e16249428b1bd164ba54f0cde602045a);
  Dbl 0x23de214f649f35c859529630210bd1e74639e1a3c905ba11fea819e6c787d21 0x6022cf42bb8df1bc8ce15e7eb2b3944673db090e4370d3b1fad49162eed69c3 0xc44f5719b3bb54ba63e72ff3ed75fb2f012b5bd5f7f6534ede83f8d5dc17b19cea44ea1dad6cbc92d60f582a622a1512e55d8cb6a2a1e556dccb27cdad6f6 (-0x20e2b1823957f653ad8a44db5e38dea1b054742dd10bdaf9722960ff49c58132c906bc4dc7b17cac370c6d132a9545a569781a334d123bd647e26a1f70b32c);
  AddD true 0x89a9e28b161126adc633ffb786cf7d60cf09f8c7d0b18a1dce35f18c644b348 0xe13ce1b6c359ae158f459dc9d502f707778731c43147c38796d5bb5c4777e33 0x845331cd1e71d3f132374fa5c6fbef7efd8471dbd54877f765c422391eeb7f0 (-0x73f59e2552cd3b7eb73bb8447ad7b104f4cf54a1bf42acee6e2867fe464c6d3f1143bac9dcafc9b2cb2081972bf6a99f02d1aaf66fcf9f3ccace10473b7d253c0892ba7969639ba730a692ceffaf98958bad93b78f18cded46231c83c870) (-0xb67848e629c5ce1d0d4bb9ce727c1cda50f385afd5b4bbf303f2cf066311a33286a) 0x5f0d508706e4772a2bffa43200db2372b4214d75bb059e0c3f854c60d5291eaee8d;
  Dbl 0x31c2f6b15c43a9e7661f8cb6c02126b9fd283bc46bbe0e948092a69dc862efa 0x1290ac7cab051676045b98fae1a511f3f3add9da21b12117823626fe90fe2a0 0x60a6ce58a5fafc46eea02a004ceae4850b8434b893eaf720119302c53bf1272b21f6c1ddb94331b3a82993bb9306b38b3c3cb7727169b14daa16134e83ef2 (-0x240f1658f6b1c0139a9f93937a13cc5f47cd1bcd5cb72ccc08554047b7804f10eed5c33c834fb2814482cf89bfc8e4a37d575dcfc26bc98df7806f5054572);
  Dbl 0xd0dcc6ef43b1ff0e59ff06972f04f8d8046252870e508645048f5fb7ebb441b 0xa35db9e39378e96981e8d17b79a50e72dd500fac2825aaba67c7f44f0b936f0 (-0x6cb10c0ebe35932def676b9665d56c7d40c6e1d4309019a268d76b9556acf6c7033cfecab262cf5851b1682df082ea7e1510995592a5a92a2fee9cd3cebfc) 0x5503f1cd92624e035ba48c56d03e74f0350f755c4c0e4fa79af6a8b0bfec4d2363e1e69cd17ac292f130e33a9c88741d7e9e6cbc3c1f879d34b3d54ebddec;
  Dbl 0xbf6ecc443676b596df0b4f4979b76a0b645d99d9fa1544fc92409b814e3357f 0x53de1318ea86dd16347b24139165b3e9a9b913d9a294108d1a213084832987e (-0x3177be0246fcd53f6138520c2045314296e30abc8d28f75310126e6efeec3e465f174d2ed3f58a60a55fd053ec8af3b15c472980cec185052ea4157bd5d483) 0x15ac09462e9e83eadbcb10bf42228f5f6236a08f9711d999b45a8aac9f5b24f2279718bec50c24242357196be165bc3b5beda2a5857e0e376695da3a4cc195;
  AddD true 0x469e2338ec5da9659bf7b4492112000a7359ed6abaef2d4cbd2cd933d5fa749 0x122decea7b9d0766447003405450b8ffa1dc08daf5da4b9f9b3edda6b831457 0xbb4f3533db1478b6542fb213e375dfd7feaa1dfed498f4bca450f9c290a6504 (-0x1dac18ce64ce5c7d2627c9e5793c2e2ea82a5bee5132b173f9363488a7f2b528f840bceaa1a096b86b2bd955f91ae496f6f08021e8bbc6bb61ae7bfb08296f80ca6d49adcf15d4d4dc1604c51d6d87caeccd75d36696361a4333d5d8e7004) 0x8a19a7b21f440b69497fea5fd608708811260db1943c96287368c415cf018876b6e 0x51d0d237142fcc0f9d896e2f69dcd5c96b44fc1ea1d3008df3a4a6859c454f2c461;
  Dbl 0xd06d453e1ac830c2e2451f4f68455feb38788761225fe55f9fd62f0ab37dc38 0x3e66c5849d8b1724eea1f624937dfbc65bc798e58760ac85e3d1fabf26fe1f1 (-0x5e2dbee0a4b0d965e7b555ce6e6fc54362a7bf6c3e64897b6b04de75cbb077477d7ac72285676b9989905c20d355c8e23e6da3ed58a20d1d81990b052aca4c) 0x1c32477d1172e67bdd7a42d8c0c5e75e3cf78c82570c956aa905861f84bbc0ef887612ca98917433c6c431cfe353823542215621e869259580c08879a78cf2;
  Dbl 0xe55adc5bfc02443581631f67a61f3376d08b8ef1ff6f0273b5527a9e9c13f7e 0xc550e4d6bef5e17c996fa181335abd994f5c7945c56d1f89e33146c87ce4bd1 (-0x8a6793faf103c037384ad18b8057c86e287c88dddad6c3b4d9f3990de1b311244000f70b35855e5978d29ded7fd61efc75094c1b79c2926ae237a384adddba) 0x7712167b7e775b7caaebf0584a2a0cb24b14c8e7b5fa6c539b05535f0575d33eae95edd615a956a5dc4f63b0bd33e417e0f20cd1cceec4a279eddaf21ffe50;
  Dbl 0x28f251d9ed0b4292345620837926caf2ae7db9a514978aeba1b200fe8603e2e 0xddf628fb81f4d3a65c1f529cce3433592f88006a042009cc40e0edbad65bec2 (-0x88a7ecf65ed995c148eacc1566603c8082a77592f2ded97643d68082f55eaf28d8bfc1d833d6bd13f4ad956543177f91d87ab71606136fa10c8856bb23ade) 0x2e4c7888d38fcde9a4fe65af212ab3987905e1908b431790ff2844e3ea184e038d56bd42f464bddf6ea72834d6d6bfd1c43c4e75a6d48e1e38b658004e76d9;
  AddD false 0x94e03969be79bc185a184cd7c6d603d9a6eb5277d8207f4eed3cc0b487f94df 0x2af5e79e586648849c1d780b27b6686695c0f09dcb779170e4d4179a4a9f8d4 0x6cd39d3a6b9ccfd5f13ddde7e228f871f4fc08209b5ab3f78a10fc4987d3f3a 0xb2094842757ed2cc468b262351bfff9b1a35c816f9bb439273c7d686434e29b6e7c52a620c3fd7f10f399a943f6f4324a95f3f7c881f12a82173fdc1c77d5f802dfd755ef355b12a1b887ce0d04b49c5a2d4d3c353ab024e439f4a9ae12 (-0xf58fed6669b21359907939737cc3102eaa745ede62e36d3f331068b503cc6f95431) (-0x10f2e296b9161aee8a911f59aead00a1be769d856452881f26664d95d3be852fc98);
  Dbl 0xc3d455b80ce911313959d0a983ad84d74eb5795425abee08442154e0aca7306 0xd30303fd1af2c7d38470aa0666c43575365c2867a09bb9f2dffff7195651540 0x8e34a04ce0a1dc19158d8e0e1850ec5ab8ba437bc709c5a1d8f140e34bfa70d59904029bac004c43739d39f19bc61c50fffffe1e92f76e9d34645f7e7dbce8 (-0x993b04f3a72bd99d17ecf928e57b359889fadfe5a2eb3e449c8c7bb60ab1ca9cfba99943d8bc7725ed20a2ff109831380d1e47b110ef2a16ca2444a1e71ae8);
  Dbl 0x4688903054e5873fa38f5e98d951f55e86ee82bb62fd7606ae464659889b8ab 0xc72a0311d7e438992b9f1d3967d9220f2ca33ee4bd75399debcc07bcb26df29 0x6a5d751ca89bbe83d6f12185d6e604a32f78b7b8977c7bcb9966f83e5e398f6546c47bba03cb662a7a9e237d8c6dc0b692337539e793dabd4d08507a3ea44 (-0x12c575bb12d380faf7dbd80f6ab075bf64d03d75c8da04437d39b56d00ca7687673e153b82f6b630e21bc2a61015f2280a4e1e341d8d66cd8ddf9931bd7a86);
  Dbl 0x5e1735f9cd713d6e927c368bc093c11419e1170feca2aec2140e3a11f83a051 0x3ebcf1e9b05e52bbf4a9db59ee8cec030ed1f3d7097bd73da8475ea83adc85c 0x31ce869cacadf99ee8fd3dee1a0687618ce72e21b24d6b2c69b4e26c60a543091f4946f811d118f6e7e6f5e111675db27d38dd25bb3a26e7312d3eb968d31a (-0x2135d5c6a00dca863e8f1ecce39e8517ec3b7d5851f60739b10dbab8fa9e62f7c20bdcf2b1c0a7c651ddbae2970899b0284ad05657fb1d73a5693a181ea23a);
  Dbl 0x43e2c8cd217d8c8d9b00c864bcd8be5d0140682e6e7f420ad54b928e300f454 0x577158faee18674d69ab92a63c039624b5e3193066b8cbc37a70304315dde6d (-0x517e216c67848bab6deaab63a6b48a5f34e1e963bdd0296b8ecb7650775e85f11ec523db87f77618d28e88847e7e096ff6f7282b1de9db29d1d7683bba37c) 0x68f83158d9d9973f484a1250ed9bb28e9aa9f054fb2428a6a7a4ee4082828405b7343bf9901f201d4282c947a1db621a82c48d4d6122e544b409aaf21fcbe;
  Dbl 0xdb59b08cf2c3b464d6db1bbdd05d08af664a206e5c43b71b51a775c861c060d 0xe1eb8e02ff307565b1dcc20dd998461e32ed5c7533954742c3d23520c57e936 0xa2ada5fba1466419fd7b593c184fe4b8ff47ff4578796076454f74715926343c508c3925193d0f871b5aaab8299c44596190baf974b1e8a3ef5ee0c0eefd1 (-0xa78cfb48ba34a427104507d12f957c02372fc22c85784b19d8ea8c60b62a65aa36d02c76b786feab6cf7e5770de57c7e45ebedb1926758e471a55ea51db3f);
  Dbl 0xe51529347b3fc5e134deb905cd64ac35068c42cb2b6ed93f63165823ebc390 0x5b260b0ab499b6afbbce1216c91bf6d7779cd1621b053e5d2ad3b30a789019f 0xa39bebce6ec494b813818aa7da0d440c208a6cad5c883b96154a876d6919ac7c29b93e2db93158e66ae3be28a87184f29a98773f1960721c5bc1701e5f04 (-0x4118fe51499bc25f9f9274e2fde2f1f0f58c1ad44a6d3a613dd777838b9395a78a88b8d6f056b618caf386747ea90a04742cb49aad8c2c43bb335341d6744);
  Dbl 0x228e2714f676250f62279d374f47eb4dc8ba5035ae50100f5f10e7e8b90a76d 0x6c4ca170a9bdf497210a31901909af6a02c21a720f281557529b2ff8b659b6d 0x445c3fb16683f15011aa1d65113d8305efdae78b91789fcd65cdee62e50114c7b7d0aa4a90efe923d8e94922ab97d80cabab215c5d8f418a239f603fddce1 (-0xd63f56c7b09feeb602596384a3baeda3a96050d4d5c8f8613973023811a6cc2ee166bb4d6751c890c8d09fe3704f3e9fbb669a903d4c309ff3f0ad360fce4);
  Dbl 0x73eba7cc565b5c9b3bf724d9399077c3da5a72302b411f2fdd2afdc8b83995e 0xb7a8c10e38adb2ab90ad2812f7e1ed27b627aa23060cdc23fdf8f944366c45b 0x12a24191f3c47ad28ad1be6c5ed7039f74b38b964822bc869bb41d0c2656a2aa694218310588dde2106ac4f1709b17bde710c76103deac5f2255276e8bd226 (-0x1d85c6aec39b689ac17affec4edae86682fd32db71b304a98138a6d75faba7b2b3d51fd9dd2bc075a81fc7f2e2ea01b770cc6cc814f1102296a672d8cfd50c);
  AddD false 0xab7000aec9c02d70ce48556660e672b927dd0293d55eaf01d734478560faa34 0x97a1a344672a475637dcd2983c0b3b3b787905e7cb5594196e750f286a0a88f 0xe5181d43243e45e76c6fe530146bbf20866557acccf212d44e11cf714fe7946 0x81db8cfce5ce819c50373f1c1bdf946df530ba5091b08b840b32e85e2280d9bda45f108ef4b4b6d49b26756d67219383661d83e36ff404e3d67d7a918a3a898f22a76707666c03f27aaa77ef3c9d51a0f4ff396a329958bf9e5db8f25b7a (-0x21afa4880bc14f1d00986a12767c588db74f6e276e151bf9b510b2e301827a75b625) 0x4830bc4cfe19e52cbd310d28a5615c170c2a89ba87382d760e301f3a1442377e75d;
  Dbl 0x7312537b04df9b0421c71f4aaf43b112f33b080d17998d470a24daa68fe3a7a 0xe084c4da24df08127f21192a71b36e1042ffcd78c251cf267f9d66eac2c9094 0x23a1baca186e0c2c6d26ad077bfe8fe96e5dbcfa41ab0b31d1fefe55bd0c69fbd3a34f59228158c8a86dfa0ea152a6e72839f4592fe2d531e6fff1ade301a6 (-0x458599f8d6d9e9d71556e3b2e2cda12dc8092fc6ed208ba888a0631b2affa7a2fe4675bb6c5682c98e94ee8951cd59a2e7d1bd47072bbeeeadef311cdaff1d);
  Dbl 0xd8ae17e4a2e1331555fb8bd0b757205af57282430e0a7b3e9797ecc4f662cc2 0x5b63e55849ceae76626cc5f122ee1c163b88a1bccb489c499c9574ef9766832 0x7ae282d7a5b088baf514dc32b38df46ebb55fac9efb004aea6051f62e21392289a42d1329652fbb4d2b3149c405300df3c4c1a66c9ee41a883cba7d7a6cce8 (-0x33d46976c183feb2ebe7702b975d8f9ed1b5eaa1764cb7a4c48368323c393a0b702975e8815974631e6f28edb1fc9d4d4c7dedc990598bbc4576c4ce98ff08);
  AddD true 0x8dc5782cee3dca791fb0e5cafa966baf91fcd5e0278e005535a23ed0b7265d9 0xc6f9cafbc298fe565088065b58c73c242c13f2e0f1f0bb7255756ff208d5a8 0x7afe03712dc23a7e89341f49a0a631f01dbf7743eaac6bc6f3244c3dbac50d8 (-0x1eaec63128328bf2a6faab01470ad6a9ab39cfb67917cd5175aed237008f655098fbc6fb3d33514aa377fa9b2d01a8ab47ad931f48b80fb1e69fa1d1f096c0ee1f6ee12f6afcc230b5f61949546ea8c92a465a7403aa0d86227ed73f790a8) (-0x1df9296c003bba912ebf5c288f53437208b5b7588f56bddb8e1fc74d070337990d) 0xbad5a172597cc52bfe46f69ef0819a4c2a156848d0a15e2c21f07deee7497e7d1da;
  Dbl 0xa34679489e074104caa73e341833bf03bcec8426b21df22e41000b3b979de2d 0xbe8aae37a9c07c40c6d674b440333092fcb2558fdcf1bf424564d50e6576cd1 (-0x60299f7c83a745fb9eeaffc490aa6997a10a34eaa71caf086c75131c015f3bb5dfdb687c4dfa095a5f481adae628c83f4c1449d998cc244a9e87c1b5ca4b28) 0x7038af3ee34124bf7691c6fb2c3b2f0be75938b93db74fadd1fa0ed78d119a684a6b7a9e21eee4982d72eeac0ea01c8d7e2fc66a26f4d409c8a0d170d32342;
  Dbl 0xcad45748d3c0eb735f9b39b12af631a68be9339132d72ba1b9ea2a7bf2db924 0x3aa4cd731ee200638fe131b598dc3d8ee560e24fc32f4360a0b80882423a95c 0x1ddb9a3b0311dc12e781613c43227f69584a45c8db7522436120f3ea45a53571fa4d2a81d163dc5772235cb2994cb8821ee913cfc0d708879a730f605f3d3e (-0x8a1fb9142e07aef32adfd43537c4d94b72e23865739a85b71643c46cd82d5187aee99b72d36b6c22b5687a923f949c4b6088584a993312bf5176d22bf437a);
  AddD true 0xa63dee5cf21ce20710d9a6168de15ac3ff62d8a6259efc81292611ecfe069b9 0x76b3e680119ea98db83b4b1a61ae8385288bd0fb8d0c6918bc4ad2cc9d75653 0xed4648d439fce4ff354b2e173b4eb618e71dec4e0328329941729d8442ad5fe (-0x13ffe6b7162baaf4ae05c309ed97d365838e019afa1db66472b02edb4d42e4d3099614854e8bff2b73b9d93d1a847fd8b53d2717bfb210decb321ae9a813a02a59dda6e9c389028711e8ce1210cb33f62a26e7fc9146f9506e7ecaa991b6) (-0x154889f8c836deac0adbc1606a4444f4e21e6c74dfcf2d10511adf813ae31380a007) 0x1a6fff185ec8749a3a052bfe2dd0b769f2e518f141e66e4412f043f52907486cabab;
  Dbl 0xac79804739837fa89518ecf7fca9daa0749029e0cffbf729a385964b9807b78 0xff668fba2b2b2cb8f72bb94eb637611c4b2d4fda5b791563b681ef2c975d396 (-0x63380d51bdae6b1b568b1372768979b50e2044e7f5a099a3aa53dbae32a9f65fb58791538513b9c575998e5463965db7cadf89d9fed6200e7f7a7a6ad16560) 0x92ec6e0a8d1f8979d279bbeae0c8172e0de465828a498b3ba9d51c554bf8beca353109466776308323e82386fc7fd16c1c149dcc423f92cdcbd41ecd64d3bc;
  Dbl 0xdc4b0e6ad280ee5d78067a81797d272ba9a4091ebc457998d334bb0065e05a9 0x965c1f201df3d9a020004a93ce1bc990224cd01e9b3f173690b0f6b7817ec83 0x7744f8ab49017ef4dd7798bc4d383fbe54eb78e3b7eb65ba857a49d8d094f0217adb6c252241ac94b20a2c1fd980e14a0ee2e5e1f33bd5ce4866fb586748b4 (-0x51681aa83a73e607282107ba171b37546b4c14546f0ae989360d48e105773f398e11b2a6ba7651895896c25161e0af20925a60ef83340c4e2d35bd2126baf2);
  AddD true 0x88375c6f35139ad2c6b359f0d0f32e1384ce78558d367c56a45e2176fb5b65e 0x7d5a73a8f3e0d3856ad56a20b927e717fa0bb6f80492a18557e3daa3b84b31f 0x80d4878e4f2a826001e84041b527ef4c4b8989298cc7edfe8493733c6e445f (-0x26f5a76559314f8f3f62eaa7427af2d5711d2fe818ed27f3dea71698e880762b5952a34c0e8d4c614f9df60e267fc8f2fb8955a8acbdd043cc8e4d1c8d513a63ab61611d60c14f3b237b34141187e8903982bb11a3091023e5949bcfb4cd8) 0x6ce4a74a6dc8f22a4ebf81db6364df7597b6dc0751b745cd1eca0a1c269eb06d6 0x94ece76adcbf684df7fd1b65d233e7f63cd9683e06baa4f572495bf9ab8def73ec3;
  Dbl 0x75f79838080161b3f0929895db8cfc971a110f86c699a49c122b1de51a5c5fb 0x9ac5b52d819e613f4d5b46499efa4b7d9cf32332927b7b3330219d08fc5dac7 (-0x2ea8a374a0f7ec8a24eae5d516203bab92a23858b36e497f3e28731bb5b00a518b427364a7ae4474289e9c5b7d506b7c5a5493b744508f3595b2aba71315c6) 0x3d374d618870b475415b90276eea352e0643f0206948ea1e549eb28f9b151202540eaf70d08a57841c3cee14fbc26129ad90ebc440c82007a9da3e57a741dc;
  Dbl 0x60830c884941a8f76330975a65faa9650d842af0feb0982b7baefc8935fe20e 0xce7aa36eebe50762a2cdd4944bd6d37412b98fb75ed7dee5248082e1a208428 0xec866ef60fe5272c7f7109f4b2e9ef2f92437653ec1c988e54dfef8d2a7de666d4b655701ac321085f7dfee67ab245ffbf5a1cd2ecedc76d23f94aeee65ae (-0x1fa0685fc89b5dd4a72b7475c15e465cef3755a39d5d18658fe517a955fd33721f00dcde62a883df8af78f49939e9bd7d2d2b5d3362345f2654b98a6fbdfe2);
  AddD true 0xc1c44a3b3c26671f6779037f4d9b8ebb75118305a51af81a53c0481f5e22a54 0xfad90cb3273533ddb93549c82db0e9c9646032b650c012e0e0014ec2f5b55c0 0xad068168f2fd37e7269b0ff7151f6e0f30a15298907f36b781ce234bcf59af4 (-0x144815bc8e34af98fae5739544f2e93acdb384f1ce00ca6ed40b71dfa84de6366cd474292c09e53bc8cffdbb81f39a6813503b3b604771f0e44a9a8383d34317b6e07fb6ef30f4eff789ce422c5b38ec26334719fc50ae13169dcc9671424) (-0x1750980b892739227290216a2ad79fd2eb4f3225a583b294d79ac31d5240761677c2) 0xe6da5a5d8e3e8c0724b2b75ff04e0eb58f466f90319cd427d1b4ff38ea76d51a55c;
  Dbl 0x17cf86a77599ac6dbfc87bc06243c4a73495aebc1f3bf07a4d70bfca1ae843f 0xbfb5158ac3ce19322f4932e243dd2ddbbbaed20937f9cc73bd39684f8b87596 0xc1b043b088ed08c2345a587c6f0e10f83550fc8fde5de5cf924e4004f860bd9b6cdf3bfe07939e9ea6281a7bc5ed877e71de76e4eacb3fa9c49f6839b0534 (-0x6177337ad8d1eec3402618db1cdfe30e089b9e13faf719a9e9180e9da3bd92a10d59e82015c0caa1a065319c875861b5cf1a33f2970cf02cfae69ef7e47080);
  Dbl 0x15f558d1f9762a3e14cb46f5fd52c5052ead098547c6269e4c798cb11a3e69e 0x77eb65e2ee437f0b67fbc1c479f338d6425256c7d27ae840dd2121d89d992a7 0xc1fbf0ddb7dff8a80b92a3dafb8e551fa80e0003f9612f9da51db20d2c942cf2935c320f9265f7b5b51253f0c7ccea33f3c04e76095a5508ab426d2a2079e (-0x42363bc279a4f09aa06e0c944094604b9e9db09cf06fa2fdbd1d2e8abf17f9d0f62410030fca1caf54cbe9b52cdfebfffaf31d697f9a53bf847cccb5d2c5dc);
  AddD true 0x31d73f6cf71c2d787516f9dc9e3008817754f6a8315211ed5cbf9ba386c268d 0xe6df916aa54d11defcc47f336a8e97e023becc1abbb6a2f4cc482b3610ccc17 0xd21c2fe8a9053f22587d5cfdc55d25efc25b0b5f9817b922699e6758f558d22 (-0x7a0fd77f6d5303cd3165ecbe17cd4904cc30db17aa180fc26bd2bd1a1357ee36ff76d2dbd6dba0a30c231a6d93cc816b3405005b57862a82e7846f8c3a869eac3c788b548b360b74195dab1557c358f363a467ea7ac1466177944ffeef6a) (-0xd449abf37999a8fde43c33b4a29be84f1f8e1530fced8b68ad7c1af3f4859babcd3) 0xaabec312d4fb90bc01d83b82475fe243f75f9112ba80e747537eb28eb6bf998f563;
  Dbl 0x971e871f46192fcbb8f5b41b41f4e9f6d8037ab5007d6e4ad1a187cecfac1eb 0x4f94067b06b907193f847dc1b498fdf2ccbc566d9378ef5dfddde479c999e2b 0x200c6e1d1febedc876084372174964d8e86c26777489e79f8bca604e8214ce1cfabd9ab10e294ef582f7a9f0046cf95b79779353cf95e6faa9e78566bcf437 (-0x10e063a4e8f924adf5fab46622221a9d99a1de171f0238ddb154e7bfc87a9a5142d9573b4cfebcfda1f15c284451958ff7eb7b766110532b0ad7d1b56e7f66);
  Dbl 0x1ab67e12809e40302373e16d75ba249813f897be615ac911ff4ceb200ace531 0xd2a6f964102a3e91751b282ccd4f18db68e47064e9d58207d2a9cc33ca2702c (-0x6ba2dfa5bcf14a3807a1f48131e945290435d53dd59c39b6159c726180c2535c92c6a89a41b39daf370c031de1beec3cca5d0ac5df8a69415923eb828c6fa) 0x350cc2ee54a03ee960c26405cb3c01320b70c9249d896c5d410b841cc894f4f27a2f1e9b74bd12192fb1ceff768c2bbb5555f6d22a0c7944e00413da86fa3e;
  Dbl 0x96b1a51b78b1d8bacbbf3e34a3cebc4393a411cf081ea55d580e64b7d528fcb 0xda799e8c2261f830fe56da461ac32992740c009bdf238d1706b7e187bebc814 0x6464d7e99ecb877c4f506561db93c428a037aa26baf1b5d2870de6fca9fa47b172aebb452f6204d49c072645a9a0788df9eac3ec3f261326b36e0406826b81 (-0x918cea7f56d0fb109c213ba8a9c6d0037fb90364a019f9a293df8d9025601b64deae09552b8be248c7df850b4e2b546084339dde6f96ee2e96d167b5ad6ba9);
  AddD true 0xefe178125b9310a5605d964cb483dc3f36fdca62461b94d82e6bb611a97c80d 0xebdf515002e83ac3cdbd310bceffeb7f074971200217f1cd1eabb4010e77f46 0x82d75b77cbcb346a87a0bd76ff6db9096602498af0fb7c3c403eb9d831aa2e5 (-0x1694a5fc642b0f7a6e3224e557ff09936dd0297e766dc1049a7de8402f6155c9c54ed6d2856e524b7264d34ae0c69f2a015542dea04249b981dc83d1a7f8ee6b3b46f4787a72a75e93197de2ce1144b08b4f6eb0915aea817ace97b18711d) (-0x38565a0add4005f4d4ee82fabc6ea9fb857dc33e8fe3aee1b0628d5e9de4208d5ca) (-0x5ad847574143c11df7efa604b18db761609d790c841504c40fa2fa4ecfbb8a284ab);
  Dbl 0x7049c0c1c7c20eda6d2401222b5d697b763845d8b908b30b3f4f76a96c8713c 0xf396776bfb71301e829ca8d44616a3a98917e835fd20eebcdeeda11dc67a6b7 0x2adf974f5252368841c8abd25b740b89c5197fe76c7195f792c13fb0dae3f20303261d978d542393696b1ceec194b582f95c450e8deefe778f1013474077dc (-0x5d01774a2e37444bfb8909117bb2d72f3a4f5d0042333d9bad944ce64f96dfa72e532b69cbeac271ae6cc897f7ab6b4c880e75a9b500b694d97aefe5bfa1bc);
  Dbl 0x9e88cdf7712ce3769db5b731b57f3c3d4d25ad8c4113f882fc8308897e1a96c 0xeab49722b1b6efc3851b6786d91a63bfbe7417aab7da8e4a9d0a902175b732c 0x71087a4205f913fc76ba9f8bebd8a5e8c4c586cf3f07610bd25d08ef59d03b86f5ca6cd0c22a44e6f113081b7002ddaec22cfcf5d41bfe6dc7f061846654b4 (-0xa75797212467ac7c5c2b75dc6c7f74b1b60a2a17dc89ed2c546c0eb9343ae9b8922937469ab82b2228c8f164c1fa04fbb8407f7baaefa8a6a21a31388c48e9);
  Dbl 0x858518e2ae4ab43d93657ad44138af7357ec234beec2eb4dae06df8c031c5a5 0xe9671d09433891aab03fb479e1c2a79513c5d95dddf4a997b031bd7bca6aee1 0x3d069abebe3e6e5560cc1722572a9232ba3f9b4057491f553c96ddad8bc14794e22b21009f46a4b56e5a12db2c9f17ba166071d28e13ba329867d33e9ac460 (-0x6aad7b09f6be3f2996d932bc44afe89c07a0690077c03a37a411ad2e05f027a6e276c7934697508d8090c5001a5343142a93df69762e6a6ed0944d63ce1716);
  AddD false 0xbbf9389ab95ff1e409efcd49f321317c0f5f67fbdae9a5c497b144562c8c727 0xcff9b0465b342c20a5a7584579c45c10d03a4ec3ab00bd1e6c77106da65e685 0x9b06e9cca8eec64c983cd0565a41b0fe5306cc2a6ccf4eeca4c7f0b2a8bd30c 0x6919b6cf16f5b7f8f19c494dc3d0ce26ac761937eb1f5c22facfbd42e179b95e852bae33683ba6bcb49d5508c3d2692b6a112e81a02193556b0f4969b896484fd48a53e8978c881549c3b1c94d136ea9649d7f592de10ccd3426a39308962 (-0x36ded33b821136ac148331465262892216e151b0f4bcd863b766bc2b7a5ecca37db4) (-0x19cd56d4ccf27eccba8e8a57f2c55fecef380bb6adff5cfae0fa0ed6e0b2634eb5fa);
  Dbl 0xc94eae1579c7b3bf84f02ae92eec89f81656ee656f79aad58b1721aa61b9c51 0x8b97ade941298bb071a2e1d3c413d318e9e616fee72d8a7e590b7cda9fb2157 0x70936c14a39b5f59424d7b00d89ab3b99cdd9e3634580015924d97c4815bac3b83bad02bad4bd4abb40d84d3169cd64a5a572a5c38ac0f77ebb936e0f81596 (-0x4e103e83d8328ec38a3fb0a0439065106451bc167ccb17f3a226d55d3e525b62720187d7ec392e512d4f6d4414ee9d043e9f58da39a08ca5278e86f5ebf054);
  Dbl 0x33dadc3b13e064c94d360e27b69d6d4cae14a29094f27fc9ed245711c2dd6f7 0xfcd494782ab392875ed029cbbfd6e447066431ab1ee5992ff235172b6502551 (-0x10a58a03a1c9e366ed77d07eec73a7800999f77f35992a0558a3bdd7e9bbb793906480e57515a0dc16bd199536a6d8e494efaaf4c6bd5dfa30cc73f52c30b6) 0x512a18bbcf037a946e082fdc103eb58168358cade3486411ad68cd31f53475e8562842ceacde437147b0e0416cbbcdd08ec486fe3ec139629c12e1ecd4fa80;
  AddD false 0x77c49a4f6374ea073b2e5c6dfa567bfe8971d7cbca8375139f5a92b6a289b88 0xc5f9165128e62aeece7d138b874b02798c0f16610bfd01227f8a5fc02a48a78 0xc7093da02c4db8f52762cd5f2cab6d4b6eb4df39fb2b6f686453bb0832d52c7 0x1e8cbd87b5d95ea037685749c91895e711771e73d25f9c520c926dd76cc23c4c47cbf9c1933d969646f17f1c2d0b54b85499151af07b6345e3c0c1940ef11f9be6c46f754b311884327880ecadec75568f61ed049c2c6b9e61e34f3acbf66 (-0x26a667ef44315a471128082a324c539cefaef504e55fe1943faee5d92d2771c3da1a) (-0xac9653bf520dbf869f39a28411b4129fe79ab9933cda26be4e667a877c153358346);
  Dbl 0x2433a4dfd130eb08fdb8d7ed710d6aececf53ceaa05df07b92db1dc15b97989 0x62fabb43a400ff59013c1f65e0d7593e07c59364dc913b03b6eed933f890d02 0x21d352e811daf7bd51dbf673b9c914f29288d7f98a50bc4de4521ac5637ce635af45c64bc706c39cb700f4d314b2cfdc7569ae454f4c8a1867cb86bac1df4a (-0x5c7b84d9fb07cad807b9f2808da38fc81d0068ced38959558e2c23515ab39ac548262d7c3e2a531c6c450c00e355aa2b46550a627ed8b99dc429fdaf356306);
  Dbl 0x76a1c9d4922b547e6a9898a4c979e6e0af607fe50206aadfe7a824714a8c6f1 0xd5333f732fd311545c63aed17b25d83c4b0073a2283ae3aa5bb2a25a1903251 0xf5ca1bd0c469378d29c22689aa29642d0196317d74375535a46d5e7fa373213cae471c329a95c0c3eb737245a12b2723ed7b8644cd44e2b6a65fb0b24edfb (-0x1b9b8d8902c9f7aaee12c39118a229d38f6ee435056c500ac6e2598a85985cb8e79cbd257edbcae364105af765dffb74b1bb3b6d32a0aa66acbf0e89fdf7ee);
  Dbl 0xc9e81762e340f163c2c4bbb1c207bc1bccb14972f1bafee8823e7b9febf0ef4 0x5c43d3a3adb260aab2be4dbc9de33385b7ea5d0239fc8652d6af1a3f230e6d 0x60adf11df5e1742be8a41afa2ac9287d234e439c08183de233eda3df44f6a04ed69ea7e316ddaeac29779cae0a58608072681cd558fcfc6f533dd2a2a7ccb6 (-0x2c2df143c5e77e7552417586925f4e844a4d876d63024f307a87a866bdb2a5e394ac7e1d50718c4cfa15869da6d5e23715dce77abebca7d079a3af39e5808);
  AddD true 0x6824ca5710234a167bcd7f53ed972798afd87d146c0fa5c4db3cc8954ab89c0 0xf672130df84e1b2e6ea900dfb3b0f7e579c7bee5d67e518f7e04da948165d88 0x9b375c2aaf6782ca9820273bd5fcf7c1223463b2cdd57d64be34685028728ad (-0x1a53e8a92c2dccf7b8af8e4fb0976036a343b5fac6768badef89ece6a0dd8c5b7c66071610c12e50203d290b46a3143f4cab2a1d0fdab97793039452a550b8940ac5c4b79aa55ef2f1f0f0fd70fe9a7536c5dc7fe1b4bbda96505f44b2c1) 0xae052caed6d07cd10ea11447c7b5426a10ccab6ddfaa8282a3b8a10e321b6841f58 0x1cd66f56e9a271a872689ba5fb4ac096588d92ed0e68c4874edcc7027a4eb5542690;
  Dbl 0x3de7d8eb9a9c54b76688a7994d2eb4510b41bbe72ab685881e970ca0ed48e84 0x38dd218e3d55444dd6dadd8017b1f7f7f6d0fbe8739a0e412e6a9a9b23703bc (-0x267a048511f1ff948da2e80237c400294518719716e1680ec71621f389bf3a1145e12b3d91ffb96d1ef2853fa9672e5714340d155966d64baa57b6bac70cf4) 0x2357ca4b73c01bdfbe83feb2867db442b2397138b309a7a56fc0bc0780ce6941f6e5d5a7b94fd36444b3de6d90d9222a01e26933d6aded2eb21ca0d1df284f;
  Dbl 0xdd8a669e834d7efa682e4d212f180b4fa883f061d28459fb335688815d3b604 0xd32cb462d7f6ab7a4afddba871ea92824db6d06a59f39e0c76933755c0fb1c8 (-0x20636bb56ccfe0c9a56fcbf88b3c0bf4e6f78d83876066f62d47b4b15b34234b80a01f8d2b1af10a9e6b9997833b2808745b0a4452b300801044fa1f2bd60) 0x1edf75fb06d6ad086659dc70b309f496f1fbe0c2267fadb0eb89e4cf2db543ebed59ad8a3d0153db0a5df4b1b821c918d2d4849342803d62d409ca4d6b530;
  AddD true 0x7ae84f4886ae4d65260f6257738dfaf407833a190145ca7752126d3ddc8770a 0xbb0761c308ee470ff8a7e8be6b8c316787a23d81f3ec1edf1554db6bd086964 0xcea155c3fcde7071c60117bf3a0679d880d6566eba464f6a294da3516b339cb (-0x4791d98d5e530b839c38067f23607e43b39e61c25a5472d56b31da63610e695903a3d1caeb0e0b88da63cfae145d0f045b4585d76f6614714dd439c12054c255708fe5ad1a07752f37f49ae61ad054d54838d2365a25cb11e47893831bd97) 0x3644c45eaf297097884d19a760b00cbcd5fff06b7e09d9caf490b9b6bf40117f9b2 0x48d41f9c3f21bcba646970dddbfd1706a7f43d03d94087493817ea002d34fb052b4;
  Dbl 0x8f325c73b885e485886b1f169aa15f3a1bf8e70f7182ca92beffa0514c21956 0x30e426fb5b064a18aae1adad94ef7a134a5ffcbfbb5d76fa123327efa17960c (-0x9cd08ba5c75a162053f4fdf220c634ee10139578781407de202ef81fd8d087ccc27a4b733b7e48f60c9f06477164b3cbe578a47563139f1824ce6d98d1aa0) 0x358a6df6f7dbff746f7a58a830b3ff33c48457da71d6df8ecd5efe81bc5d81c09754f77b912ebe7e0ab7f9d640254f0a0639ab07d49265041e2bdb51e32a8;
  Dbl 0x33f64e896261858ba40df3774c854bddbee3682bdbb8c6bc0fedbd7b68727bf 0xdd5ba0ba5b235f7c24b3f2b57993e2684e7ac3687806b5ea44ce90f815c8605 (-0xe5ceb806d4173874f68359048b084e6ac37aa3d39e6e783b4a535ec6bbd7b17ed14b9303e88fcbfbd28852b8485e51f8ae8c78fd095d3f6569ef7bdffe62c) 0x3d2f9fb62d7b038bda415aecbf14b55518036e42b3ed7bed563d75fb5549161e8ef0553c7a3f4fb6ca264c73e5475941d6102daeab2598049b6e11940c41e2;
  AddD true 0xed2df92a43651a23e393cca6ed5d28d2a8c0b153f8479f123bd00fb6a07a8f0 0x8d96ff4578b335e11d1053163c53ebfe9ce857e3cd66ab1ea666ba32ad6b285 0x9b2bfc99f41d022fd4a1e3dec12e0a2176512e377cf54db8fb4c8ad9103194d (-0xfc27e27a3bcacff58e7805f0a72039ca87e93b79112101d377069c82c533732dca852e6636d83557f517b5d2dfbe6b23fb7da05b597425d622f3080b9d30d835223ea1d1eb20d7b4fb3fdfd072486595fb9f0ff2509a2484be33b93aee39) (-0x198b3204e18e63e64789aa8ea6896f838a272350471730194574b5056ef8ce06564e) (-0x623010f14dd0c90506a513c857d8110498507341a49dfcbb02a37ccf11a520712fd);
  Dbl 0x192a7f67a97f11776f8860a72f7b0911037d570be803bde6036537b79b38e5c 0xf87d330b7b931d0315ed2bb087a0061093188a566b630d3dc0db6454bff6d08 0x11c76f9feb1f82346df6c4b0ad14cef0a8635ea29f3dd0b235e191684610775d2b15cb18f68c303024c7d1c1f2d261983d219b3de6a463033d699bf0c64c92 (-0xaf8cdd076b447cd7b55b8a25b031433a5af8fbe653b7c015712b89f7cea6952363842d0d26137b28fe2917c8863689887dbb7e684b5eacde6046f7cf9d3f32);
  Dbl 0x4da858b6fab3ae81bac856e3bc46e3b75117d55831c62658073d09887888969 0x4aa3ff904d00936db2835248cba2e216d3f93f0eb9df9eab0f6f169cf1535f2 0x486ac6ce94d8e9ae26fb93f22db1021d4d8fc5dbd1bbf2fb470abbe65b5cc63d2e4e9b6bc6b83128d868ed8aaf34a89cf24485a79d57b2bacc79171104f2b0 (-0x459a8c5183e2e860c5240c81fb06a424715e99f7d5df2511bb5a84e2d71668d6f86bd23d394b34dd62208f8a061667ee5934031438018569ff0a87c10c827c);
  AddD true 0x1cb4fa37422e7e9ae6282ac7252c846ac4f902106dcc49558783f1615cd4b30 0x2128ce6ff57d88a276aabbe423e7f597ee9c11cd2fb32e0cab4c7f635709813 0x1e0f1e8dcc5ec8efffdcb9f59af4a56110ca195814d7ca50f89dfec467bee8e (-0xb9a38619738e0763192e738ae0ad6215ffe86ec360afb92858bfd12be06c7ab764b8fb9ca6fcf59ee80c9cfd6c63b1b96378f6e329e844f5a0853c6f4e0add585dfa2992656384ba163de4001b94f0ed5d48018de4fb2ce140d27d2f31e6) (-0x38fd9a071587049c70282a0b009697d05c20903dfadef202bb729b385abb19d0d77) 0x4299be7d3391c3c471d2ceecd9b4b6c6d389f2018b5a99212ca9a9f5726d2814075;
  Dbl 0x73f57f10c62e57332c189834be3468ada4b611551373ec84e92c90b8ca36795 0x93fbf6cae7438beee93034e7788165c32f9a33f01bb97a4858066d2d33f4834 (-0xd02100794cf628d2ddcf734b82360cf4c601be6e2ead4aaed6f2618e6f5f229c9526c84d73dd6f4bdc975e2930bd34838e008682c6a3edcd1d31bd67d109) 0x1099c04b9cd08e3b72edcb414d224bc55693427e855b0005fdceef2ebd26ac7b6c9461875c1e763dd412ad6e3dbf46030c2bf763f6d41bec88343009aa233;
  Dbl 0x17b3f6ef935a6ae807fe6c67d1147db6229431d25587c94718383d3f4ce53ef 0x98b0c0d383835b6a8a323a26f1cf275d5c2f06a9f5003b5808edd326a3af74e 0x30ea5d00b825fd26c73e39e482f4683e5e779e2416f03a2403dd7d3a6a6d845fc5c61e66c455c0a206be969aa39fb55822453d90a3ea12c8b5f10ecfd08d5 (-0x13b1ad8b5def182d2bb8c440b1be34beabccefa40b32f12dbc67d3f0c9c6ef8b7882a45d7e144d6ba90c1606a72bad68c674f7809e6e68164a94759b92fe0b);
  Dbl 0xf76c1f2988a0da3220779443f55acb9f37b467bb427c7f6b4e426d93d170213 0xa6d4485b487640467e6ef859152c52063e67baf6fde39be2d0cecbc667d7a5e 0x55e62ed33e19854444107978790f4f0981bda84eb5fa13a599b2cd1f568be657ed29972a71edf0be8265de1810f13481e432c29ed6f1ff77318235a4e43da9 (-0x39eb4ca3a77a9e2361006f37b3a08741bbffef56ee64d0d474991b40f03fe55026f3849d5769eca7dad0dffe73c01e0df27614eabdff2c0bdf7207d7c203af);
  Dbl 0x58673336626ad17e0804cec0630292e4e95841d577bc3ea4e41f6940194ff38 0x24035e16e31df6e08a6f406ff527b7ed46711ec0cd557665b5479b83ae0934d (-0x2d08f384ebdcb034550cf1cc277b6ef4c88c7a1e2935effe4598f31465c104332dc9568484b5918e635e7129c6c97132f8693b292d3a05e50f41c5e57f91bc) 0x125898f97ddeb4f55b21c30c6e88042fe3d1f9d2945cd35418dbc28c2807c02a47fe9646e339bc9fc08229b45ee791ec5833ab58d40bbf2724eebb422e8906;
  Dbl 0xd193f8dd903654aca492e6c5133f04d8091f3cb3cb54c467b1a3b3de1dba6c9 0x7e9e4cfa21ff2a4bd5d518a4e6d0c76d1df7a8f7928aecf8119a1a1fc745967 (-0x14d830245e34987378f96e93de8168c0590887cbb465dde0b426068ae4d8cd080a3fb3a7b4e8e970025272d691bf360f5aeb2595a3dcd88185a5067fa413db) 0xc97e768640146e0fdb4c7a95892b53794da23253d1d2de031b16115c110d60e92adef336998c5aba5ca1ab1cb7c2882866be710eefa1f922f87748bfa3c7e;
  Dbl 0x712ecc3637e4bf4272c1e89bd0e75f6d76e8df8f762301fe4d24108daf9ec0f 0xd77b368a68ca425a430182c39f9b5b724f7f37ccf3715a29913c72c78123d31 (-0x302b0f9b20794fe3a777c7efb58dbdc03d498c8c877c994577df731e5423c28754bf812a9e0e1dc91f26f24831d924f42bba0fb4127b7d32e6d3a51e2ed916) 0x5bb44be9badd394f2a0199e0057974c3c09584be34ebc125f4cb4d026c0ef77d1faf9c15a5613ebd6a6fa6e956c6e3414b044f6a43967431e2f44a9af08380;
  Dbl 0x5a6fe31081278eb6b0a1eb8718fb913f6cc2098a52f66ee4197a6b39ecc788c 0xd8e795dbe00df02e4a75472c81c12f06be93ef0e227dedcfb70e3d2a6145b84 0x2e6594ad5375376d8abb7a8cd1494cda8d9ce037f5bb482857880a5352b440414201aa1f20aaaf71a129b30e3ca39e4a49e5afe290be11ed672d5d5a689f0a (-0x6f473da8a921b6448403a4e37b7a89b8c6cea35b664c68fe8e949bb6cfc382d93eb7a4fbddaf47bb9929a3215bf20339919e5373527a31f2cb59fad2e688e2);
  AddD true 0xe27171d6edd12237492339d66d0a2f6b164a2a11ae5557868e62b073ecf3da3 0xcf5bf3737ffdd0edae4dce6df9c986a76066225e9bb629b985f4d5bcc2973f3 0xa70808d41887faa5bf734049397e0f09e04540050d4473418f5c644e979e5ca (-0x11cec86e5dd88d7051b5aa7e0e4b9fc5975d93358f16a127c9cfeaa80a0d2425a2d882635a905f5ca9a5a279eea096f1935f3093d8856af5a689e79d2c5ac56873acb307e6a412cc934948e1149fe075b039cc63780d27b83fd9afe0feb2) (-0x135064e4cd907b8cea4211aaa1204539afed49b2d8f9ff62a578e3a0b64bac15c205) 0xe22143341eb7386363877f62c42cdecf5c2d79520074e544987ffd90f1879d903bb;
  Dbl 0x613a5849b89a15e8ee885685ebc59828f29511cdd0b9449b337ab0f402e761f 0x48f76fb967ce9781833fb7103d0ba2d409f48eb13586ef07f9c4ae9005e079a 0x39aa38024d811eae7a3e98bfaabe0e6b7ecd4261ed0169c9b0aa171ba65326aff6955e1564c672b1eb075161dfdc9b10811409f2e08e5203ee4ea58090e4a0 (-0x2b46970e00b2d4c94307f39541a121af59f4203733e39ea1bb09648ee466ca276961aa03bd094d9be1fb9affc9de6a6388392a1d52f027885e9cd59cf2689c);
  Dbl 0xa900cc3f3abe625e378243275d600074d308c604e792eee85dd67d0f0a01981 0x7687952c29bd025c8047a622d456b3c5a579e10f5f7ccc0046c46cbcf980246 (-0xaa5ef16035158c7b0bfe6dff4cff54275f16752b7ed94f6754da2de4e860ad498d6fe251acb81d36f7137aca67f6212f769027325aabbe2c599ad521f1e6d) 0x777d27cb0a635c1d1dfac0e3b486e6d03407569de31b1e0898a2a3e44cffa498e7308dbae25895949348d8ef40e342d99f25638d6668348102adc150827c9;
  AddD false 0x1ddb29156ce4c3d7a98b32f63f98d6ffc94a9a8ba8f8192508faf9dbd78df59 0x944fdf153b8a89fee05e13c23a8a525b9ef7cc2ec1417e0d12f88e671508b9c 0x49684a8778ee57c6ae41d43f79031e9f61ebb728171f4ec384a144b6d10033e 0x381062f71c6dfa8262427f52ace6fb5c6c13c2ac8099f7bbfcaf83f7241a803551aad616c0344f457fce06c1a32d67a39048f8bef9e47af5ca89fa1273bfcfbac7ecc34b2050d10a65892ea6af7f9f9880dca6b60b9f057841cf0b91c0cb8 (-0x1e25bc7553129a268586c0eb00e355716b5ce5090af1778275f4f55d4b1418e3d28c) (-0x187277dabb9c17d095345341f3fb32e2504d558e8a482708730571bfaa92b7f631f5);
  Dbl 0x8214db56da2c13af4b3d9596b0f35d123d53f27c221da008f5ed416698fc68b 0xdd2a8502aa633940b0a212242a42fbb280b94a78fb5a509f0aae1e9e31f8bec (-0x1cce641f2dc411e171d798957cfae57668b80e4e455d07d26f02db0605963c2795855a7eaff56d7955b05da8d928a831b4e8bf3320abca86dd2d9415c5f457) 0x30fa0769e884aa42e7f175591c3cb9cfdf1c0c7e4209e48a03197fd45dbe7b007f4320aee4b28094c0b34107ee2c60bd0166e30c0dfd6b63a8dd53cc62ea4b;
  Dbl 0x1fbc3ca1d854daf2ff8c86e2d1cae8e2bd09ec4d511767ec931038ec01269c9 0xd64d79e0ad5f7fc52f179c2033b39d3874568864297845b4ea9ebb55973cfbd 0xf7e136c463e4c688c951847a4cb7e6944fcd76452467a3c55a8029bd69051d467606e4f07dd5c69d241b7a029c8ef372dcdffe5dc72627dd7bb7a2cb2d903 (-0x689e2e2cbb9420da450ed6cbd7abb35c70b3f0c1e8c8c5935b1899b544661764c88b66e30e63636dcf4137f2e16cc0fb25f253e5ef25a27678c1fb7e1bfe72);
  Dbl 0xd8e969cad6130bd2c0c1b8b7c2e011453f71a7011ad7f05c52cb41cb2f92aff 0x6ca2d9ce5dff2d3971ea26a55b998e62c429913995fa2898b5079974e3d1f8b 0x94abf5c49ceff5a2011a37c1782cfe1851bb51d0a6ecde4e4ad2cecaa7ec08318885a35f5d2e031dc831863eb2d875509c7bfcd0ebcd4cad50de07ea6f17b6 (-0x4a759b794b7ad9ff95ec74f178f34dcaa33f6f55c72d3f65885c728504ee9e78a7f82df4472febb0f146ad5c203449f5052503664b389e18e4c76f9f4b505c);
  AddD false 0xfe7224bc24dc6b5324aa7484a46ed79e1405c8780878bf3540fcc392a169bd7 0x3b889c3637ed2fb81d8ec52d4987ab215716cf24c049274ebd3ec11db0946f1 0x25e3e0355cdfdc66b09229669fb29e715fff06e0535c6147f0b7705daa36807 0x638290ad29a6695913d1dff76c7a707a64bb455ffed30d0e3b06d94650faa11228acfb3a98a9e2cb95fccb66db4286d7ba3e6b7d7f45ee8904e0d8d4fdc0095ba3e5b0c73a7025117324890e20e0d07ca15d49befab97eb7fdc6a9cf9f59 (-0x1532b39e7bcf837cc3b71ca58ee1a99ece470ebc9ed8f151bd66706fcc7074cf3a18) (-0x990f7c03a26af508a3f257d3de3789638ed282a0b3c01dded380081079e2ece537a);
  Dbl 0xf24815205f655c29093432a26bb569764d7a4176bd81258a13282ee0be77aa9 0x8c569efb454d93ccefe7f744ad3f41dc13f5a96fc23403f5a28fe85c5c7daed (-0x825000680bac050a4aa71451a85b3cf34ca652d3f95fc98b98b38387cabb168c6d3fcfe2384b08c6db364857c19d5cf2d37682ad147f7fda4e5c3f46c1813a) 0x4b7b55ccb837b940f7419ea6b0b7467eb763630f2935a1562148ffa441ce9e11cf92d12ae8f3b28839b31b716b069aff99fc8518387609d715464d755fb068;
  Dbl 0xd2e913a5f5fb5767f675a04580fc499329ef8b45923f1a5607bbc5b68d98a2d 0x5dc1f1c750811b8f6ee7cc9a9e2773edfd8e4a4f59ee3a9c7fa1c98e00555e0 (-0x7d876ca73e3a8ceac4447b39d9259e864700064ac0a9d6ccf44e16960339dc0d69dd715a2113f768a484243d3922013314f4010f01a63fb55e5eef5abe917a) 0x37cd6645f5959bd3ca9342350eaaca4dafbd31fdb27c9190747e834d829904696f04089ab685cef9a4b269a860244fbe69fcbebf898ef6c3881c49e655f61e;
  Dbl 0xd885814e827951cc065b26d61a64c0ec7e2f602047370bc7235658984195b2d 0x61e46bb1da6c983fb59294ed3542dc32eec8cab1cb058c1f2c1e1d6fa7d6d57 (-0x75ec7468363a021d7c21d3060bff25bdc35cc43b7b77526a7e03f0a7009074a1d276f1b07fecb5544a4bd44bbeb1afd62ce12c89b9c75f075cc2a890cb79e9) 0x35509aab5f4da24f25d5273d4fc5182c898ea505098d088b7f6168f766d287c54107731a857d4b49e536111b9d0ae8b0c5efb0bb428a1bd2d555e33f525944;
  Dbl 0x69f9a49c243e8fd8792e2eca58cdb57428658519bdb9729de2ca47d395341b8 0x855ec0d52736a9e71c57d16994af33a59a616793659473f0e6b8d3c93673cee (-0x3c505c5b70bb8a5e96c1875f349272527b2b3c601cc0834f1367e8847d8fe951743b5df8e082078b94cc87a5e49ba361c79e1adad9d24bee7ee55671df8a6e) 0x4be7bfe18dfa6cf52ccc2bdabfd5e780773c744007515291ea2f561c8d2043d57f4ca4b73d8011ca1206a6dd3ae727a60b0c81e6a0e6f1e007112b7a47c4ba;
  Dbl 0xf8fbfb92ef7ff8c12078b072e072b884fa4e44543b5cd826ebd4382ee08e101 0x3ed006670c92c18ee30a37d94149da3aa902789f5ca5e4dc10035d5c9ecf126 0x18e92a146ee9d7182702443f580aab216435a45e358cb4be4a552246e84e312495a458e19ce015429018c08f8693da62feffb0254c9b065a02673a005e21f4 (-0x648cd1d74bee6bfd6b5234db1ff137c421a5b00ea416cd9acc43fb5f889bc85c3402fda6b80694a952bd6e23d9dd15b293c6b7c51d011c44c3cd365c38710);
  Dbl 0xbb5e0deefe70ca0e7cfd0a29828e52bb70eafad20e5d29a785ea330bc7c9892 0x14fb57173a7bc8e769d05a632d423a6a1f891676030835c6e35e7800aa13d52 (-0xa5f5626c534cdb8a4717a5b9b7415725d91347e644d107231ff1ebbc70c9620c5daa2ea672cd0a7fce8e82a82dac2238a8a0d3b39de3abe450352569fba9ee) 0x12959a6a769abf6f975a4273d54faecbedfb58a7df943da61d60a7f2c50509877033c167a327f2476d24a912567d78b1c749af92a0ffa678f57499d91e5dcd;
  AddD true 0xd8901523fea791a73136362f21b9611802b00510b490da35859c0911bf9857a 0xd2c73147fbd00b03fceced48e2f62e683a79505de875724b919e6c8634ee7f4 0x2ff1c4377f57dbafc817dd2ad5d5e4d2f374e421372063bb185bc7ef5812cd (-0x38cb005c0db1fc8d74b7ce095070aea10c8302b7274e323b4ed81998a61f338e5de7619c6421017157b3ca2596abdaf608d988fc27345b48e8ac653f7076cf087c50f07a06aa343f07f341a6ccffd112df6e9ac07b2e894779991f15292d) 0x26e5871e0c569effa3b1a1f3418e4e17419181f1cbb812beffa34023dd2b3e031a6 0x1623e0a5dbcd35f99d1395c6f89cefe2a672bfd499ad149bc79ba50ebb9f6875d0c0;
  Dbl 0x22ec3a35c91b8743ae76e823d241d0e9adaf3705d7bc646b3d347cde61fbe94 0x490e02c224ec7729765223708fe797a30043d200973cd3a53bc60480c7ecd04 (-0x127913393fb7da2d3b50d2e657d556f3c39d533953c0b2ed330a9779a7964e6ea3517ac876e1338cc1e0fdc96c7787164462238722a30a4cf71ca1b5ab6aa8) 0x26a4b9ab2275119babd5a5f6c91c74e5aedb38fe2ce955ae5645274d5bf54ec36b649e5f0c79cbc3978c5587eba70cd91b1fd62603f29e46777b83d93d6e80;
  Dbl 0x9daf2c52770fe55af45cae29b5f0ddbba9c85ab8511b799b52a790b12c32a42 0xb300b1f0d34dba69cf40a7cd736eae8a9d19bbe0393f3f330cc08bd6e599721 0x9e820497e316849944de06e035fc54552efe96777562f683784920b621eb9870989e91b00f9872d9bc048a99cf63f27691e499ac343566cd6205b0e02bde0 (-0xb3f00ba4bc52ddb39a43b06deb9e13875d04031d7cdbcd84b27cb39e73baa12a626a09953af2989521af5bfdc6109e0bc2761c85dfa45e7b5f4574945b996);
  AddD true 0xf16643afce18deda70bbd768b1632a2e255f6e27dd93d77d29c2a7f19a0abbf 0x71eec2aee55013344d95bb945419239f69e986da57685e6627b9c97eadc77f3 0x665d93602a7c81c0de4190e54a7e1ae8c06bc43f24e8365026b7b05f6b18060 (-0x4ccbb99ca8dc352ce0843b1f114bfcf32359d8ee0446fb342c5f84d67635aaf7728fa357693fe165cba51d996ab60b43ebdd24224e6bd459bf0287a6520d9c7bcb0be064b45109fdd777630f9b15c51e7370a4566762733cec50bf0ff06b0) (-0xe3a42cfaeb889be6db601c839e0f06c41634dfdbea1b6776907a08e5273aba333a7) 0x3cd5f3bcdd62b4863b6c323b21b935f0d6f87f777d4d6631edff79ecccd454ce907;
  Dbl 0x1ec29046761afc909e27fc663374eff1cd97206a4ed7ac37f90d381bc1b3b7c 0xa0a796acf5d82f75c5e66ca1591c18b8616b3ed04efab55a98a21f736cd0dfe 0x35e7066395e9dadcf7a75fbd8b6e9d4562f91b45ef1c540f02f414245c1d484feab51650454c15ef04ae9e3c6af8f2d07497dbf240e2dfeac0bbb7c9b44a8 (-0x119861acc7e419fede0c7da6804833ba50c37346f1eac990316f3b10834618061c50e86bc6d8663af4fb6121f842aaf03f06d771f2ef180143b9317f89022b);
  Dbl 0x771eb3fe6119c1e5cdfa17253b38131729f9ae356a068861d4001bbe8cb45d4 0x3f96a691d0ea58030983808ba9507c4f0b941eb359c9b8f943ae60f448500c8 0x2d316691c35ec5f890e1bd0174f392d11dfbc319fa727a0a779e9d75be9b4de01db1063534384422ce9af10d41aa8311430011d61bc65c122cb14f38458800 (-0x181ff7258faa174eddcf271387333159f8ef56cab491f5f21bd98d77e2343a9fe72d89ce803b61ff124254d72fcc35196c560cedc66b0bae326d4eedbb6934);
  Dbl 0x922edc58e13cbcfc9111605f375b844356e0654f0bb58c36b422ec162451f62 0x5c30ce0451317e78e2137b025ce3d1689a690320b5b20bac88de3f2fc1be2a (-0x16a1ae93be7f738e02b7ea5403d3c679ddd7972b8bd3d8864744bf7cfd312c8e7bf538c20220536d363fbdf3b74ace5cb6ff9240f5967a45c63dfbd7d78360) 0xe45cc2b4a9fcf77812be458403b51a26839613fc35ff1db0fd71984e72b0444b787d39f25262aeaf4cb65298a672dc4b9af2ab335986ccdc02749af325b4;
  AddD false 0xd588ed5b3d7d9852b22abddb87587977c644d74ba512728c316583fc2e87ac2 0x12a5cc423d776f27c653fba2b5fb946c0c7953164261524f20bdeaff1c4401 0x89965661fabeacba82b22c477adc7d3a79862db469029f40717d09000aac1b8 0x1617ba3dd409fccac63a673df198dc5215c289ef3cab4a5952eea9f093b8848ed0b6a677fa8e27feb9c702a6874e292fac424876e0f7471f249ca037edd24714b44c0c15fad9bea02fa3637f091aeb420e41d0138ddc22ad21dbd46961fc (-0x165035587e96e88b3a305b43a627c1ee362edbf1c9bd89b8c706c51efd0cf34d5cf2) (-0x10d61f6140d6c7ffb030a3740764b6866b0a01d5b3d34c5318d9b3552f11224b7faf);
  Dbl 0x40eb35a5367b6bf4340a81b540fb783e36f71f3ebbab559bce4f91ccd774ed0 0x629d6cb21d7b378f7e6c3e1f342f9e29d222dca09bddbeea8f82586812aca0d (-0x1522a5b4df494cdb863d1fb9ef196e160d56e2e1df23efec63ef3be06bfa25ec79222771da2c30099bbf3283eafcfc5229b48e7f165a3610d6e11a68bcc9c8) 0x201b0c65f1adef2432d1caaa3e1eb0958426c4536843e0eb06bde0e008da3c4fb74cac0f44ced049f297dc0380129fdf7857230bc2c80dc1af91fe2b21f6da;
  Dbl 0x1ef254ec451b2167b0c7008f60684c0ac1f03c81a5ae320b13b8a672a99b53e 0x5e8874b89ab8bbdbaa65bef3297f2d35fb05b0667692c6bd7ec5eb57114e544 0x29a21f793866944f7d57a62c6bc2589fd6d12729ef4a3bde23491c17b4d0ef0f53b3bcfd655082b6d0f8bbc665bf7c91523477f255efc272a041ced9e6c46 (-0x7f2d83dbca7f2e446bd62796a00e23ad6f41234428a4c2f7b77d280055060ba39f159d2958119e6dcad1fd8a53fca71a471520ef7bf2f7168bb0907d8b679);
  AddD false 0xcabfc922b955be384c57beb21ae79949bff70e194ecf318a96e02f55c76a63f 0xabd292d8d57d948ccccf7088c681e4a7807c67c98003fd28e7cf54697efc467 0x10caea514a31c39571cb2b0ccd22f9b6c0abba89000d781606ee01c0dee0343 0xb1bfff412de138ca0df0ab8cdfbd633c7b03e23fc1f1bd560edc32f7d005e7707247393cef75b75ff2b4d57f5f49709ffcf33fc4b5a4fecc3c37bf347f4bb63853d1b756c294c746f6a1d683a39d84b7cb681a6cb9a54c63c679214ec1 (-0xb1dc3278c278ec9e0756f2bc57058c97108215e1fe5980e61b42d291cd3b2ba9aa3) (-0x1cdac5f754fc57cf88a4074cf2a00e55394f0b60c28f23b90d3340b3120e5ba3bfd);
  Dbl 0x77a6b9fe991defeabf24ec014d5bea535fb45f0af6e333137af52a966c046d3 0x185df93575fb49aa6cabf40b451ad20ded684b4d4e0139bac6935265ed9d267 0xe9131c36f5a2b0f74b52b03f3b998995f632fdac62557da0f529b384dcc738c7eadc3b07d850d2f095e4875cb0868454491ad505a8807618a8073c7cb1b44 (-0x2f7741f653409ec8630c73181b6351410a791510a792eb9e9c458b0d92b53d950a59492960f8b1eb1ff44d546187afb8907419cb40ebdf4ccee39e1accf42);
  Dbl 0x21a6bf6a9399c3e7eb623eae58d0b2a902142981144b8b0cf45d0cea884c91e 0x8fa87160dc4e49d259e04a425077573c39533a9393b672f1818bce5ae209bb0 (-0x70bda95a1f23d7603c14a58f55dbbec8520411db2f0f26d53bd0595e2164ecdf0a2d8693c22cc4db4409b5a397f26080d1d3e393fe7f82aa8527f74433002) 0x1e14ab7a7f113cdd2c82fa4a8e1ab1213d7d67f19a2e201f844f4bdacce1d8aa3254000101db0d5f777541ace9e7c012e79c4489ae1fe6057f00a4bdf4dfde;
  AddD true 0x8d630866cd7f44a6b0b6718d89cd104669871b1824ce904b5071f8ec5b612e5 0xc2823d836c1fa12a950616391983ac95d193469358db8680c03e14599964ab4 0x7d16264b929c3d0d022f98e338ac7db2788024c84b2e84777a70a4d154f003 (-0xa09c130f9de4a4f9784047df8a692321c3cadcd731aac006dfcecdf354622e24c54a7e65ad18065dfb7dc6815249b3d37f1608d257b867f0673e8a1f300059ce89948debbf12f0d3453882ac36c765684d0e556baf63128d182dea3bedcf) (-0xb80e3227fff04b8926bd647a00b5704e452cebd9ff2faea165e95a556a79362b05d) (-0x7b01f363ae0eab45846896a961406d5e277ecc1797d82563d8091d5426b14a231f2);
  Dbl 0x2303c34000e8f046e2ba7c550427265ced69703ba54fd262b076bcb0aec072e 0xfd7b441126c959ac4ae7892ae22ab0917189bc0d220abaa172ec8c21ed11bff 0xa6bd8bbda40cb6383fb3a96f1e408575c99e87de9f944ba799192dbfdde166fb5b1bd660a55f3cea8094d5a978904bf89e9e6ca2e58a7fb200ed662197628 (-0x4b714fd4448d294e726c17e09f2b401482a6d1021348a2bbc8b89aa06f2cabce3a01b618fa7681c50e0c7a475a2d2f966f34ef020b65011407a3d5f6c025f2);
  Dbl 0x8b9ad9ec3fba5856ef83183fe9078fd0493105415decd6eb2656c30fcbacfdf 0x5f5fdaa76ed5858dc1ab7026c6f4211b38d052f742aad812ed884def9caab6b 0x864287b0ccddf2608364adeec5ac8fd040718be4b1beefb4e88917d3ef761d5d3fc5a465deaf6975505453819d0b4e38e5895c0e5406103cc25f22ccb2651b (-0x5bb90d79372588dcab413f8acd18f75778c2cf10b775308b9c2c9b580977de5ae9a4072306e950857beb11a1533e663e36c529edd8b964ec05419bdb105466);
  Dbl 0xb58c95b7d3ffa7243193041d6b849b84208a3b9597303629b335e73eac5d334 0x329e68376948dcc7500cc3516e059802049bc2e47f0c3b0ddcb86f13f608277 (-0x1ccaa47c9f5ff1a04565fd9ce4913af1f870f4d63b258e2371e496c52e745eefd7408fcc2cf2a45057e9ddacc3207933c41471d1423d76abe1dc3bdf74d0f2) 0x8070d3ea920b38368699331e09decd674169d942ab4c6402fd517f6e1c4e3091dda382eea918057e69514f73a6e870e0ce85c43c458c578bfd28beb89475c;
  AddD false 0x4054cea89f3b143a618745b7f487a07dbd7af1fff8a115ba1e486c51a19b477 0xf168ac0d03bb12aacce492bf105f06dbdfa78e7bcf83d3d81ba49a1282cf440 0x5ffcb464c087953862b3d7436e3bc5c6ffcb92ef4cc43b0b3f74187764b5fb4 0xf1054522b10c66d57fba39b0575b33efb0eadd6074d6b5a99def075e35067c476cd7067d2e50c4ccfbd77f56c43b56a3c5cb9e37e8b28b40f4b5fb3ef43a33fa98c5f4bef73d895b73849b259871ced793294806600ea894af7ea8f0556c (-0x16e3106ba3c7fd42e166e8d355c31d7b8f935d9d8437fec143b56ddc1461332d1f7c) (-0x5ce9b62d994c67409f48ae28a118bf5d18faeeb68bd22fda949fbec74f228312530);
  Dbl 0xae162c12373a8775ad6a8f21723f5fbc8f432af24908f5ee9d1438609cb3065 0xb9ca6b87994b87c10e8042cf4b58172217868ee226e8ea636f0773b3c826478 (-0x50bf5055d42088a63ab83f8248fe71f312bbb4a4eaaad3311b76f3cbfb1be3eea99adf6e37a46df959dd67ad5769402177307dc5cb1bcb35d6179a9769b69f) 0x562d1373a3026fa330bd3944988b8605ddd4352eb8a6f6c06c4790ee63a90c878d5b982b6cfbb7522feea8141d377ca9e8ed81a477ff7c538b54db43cfa213;
  Dbl 0xd331b6feb623b0c90f605661817383ac7ea8079d41a832b70d19723162486a3 0xaed5555aa3a9c8ae986beccb4b22c8dda99241827627684582366d7b2c97dac 0xd92d5ea75f25581b328df1b8ccbf86c642987f7a217240aea1f420d30e8c3adbd6ae3bac1a000b59e64525f72b53676d3b59e5a9c7d56f262920c3f0935d9 (-0xb3c94957e7314dad4f907aa6461ebe24f8c6d1e6a48ddc59a62b842512f9bbc243ec9f2ea115022f471aa07a512288fbca5e1df64b1d1e881ef739c45f429);
  Dbl 0xe2ed3c7c5577360f0d5509f160e26acfd7d75a2d7c15f8be6482eb345798cf1 0xb6485832bd4b8224475e548f8a4150673f3d96e2286171426ca1e0bb7683bf6 (-0x309a3a263db0889ef6a3f11505870325baa1420e2f6ab9e440633bfd0a160d0f7bb1f3d17cba75fcfd160faad1ffd1b056f3476774b5faaf2154b449281155) 0x270a6c46d90c5fd22efff32cc80f3645732335fb6e0d58ff659cbe89342de6907b0057068e3a3253a1d7dc8d69477e6a002674e87af26a5858e0bd11526a9d;
  AddD true 0x44c05955b682130367feea526848169192a32d6e83a800c6a9405a1d1ca62bf 0x3e4639663f0a8ba5b7a620c4cb661c5e402047a34f762f494946c17aaf44749 0xd7672fa0d8a46b0eb6f21cc166672830c41b7cfa5f1c0da67b8bec83af3df94 (-0x264a42ffd44687ae866b4395969bdda9c56006273e245a7b678cb9557dfe0d24d0ac0d8f4e00728d3bd11e1760639dda994da8a371b9c909c06f3d9521f8fc3868afeb242ea313911c441a94ea8653a504f59a7859436e933031456ddd3e4) 0xd4a2f5c7aa68ed38cc0959334dfe3ada66066572b417828b4896174fb23fa2df791 (-0x78632835225e924f4c9ee597184a47bbd49c3e4d33a9de60be87a9e8946baa48210);
  Dbl 0x3bce354be507950ef535b9322a5afe633d538be8e66917d24c9512676c22fbc 0x29884c3fb66893dc3d192640cda26bf739a8161029ae7efd3406723d76a4395 (-0x10abddcba80935e9076af60941a2108dff52da10d3526ce2f2b02b2d700179aefad6008409fe33fc9a78e826d523cd6d647fbd66aa833c7a020407c9d4fcd8) 0xb93dab470b22e4875f59ce2c62074d026aec4e688a2eae9debf83df16b72bdd7453812ceab068e7b5d881d00ff3762973efd12443a15244587cec3d9a7b7e;
  Dbl 0xce47e9298c1c8bf2cd617a72ad36649dc4a8309f2572d7fcb9da22b5c01c610 0xbc04e67e8dd23f196f5bde30a45543d75bad500b21db221678b27c07f40d79f (-0x5d41e02b8646f077a9df72132261481bfd74623ace03fa6592f25b6652c60649586fddd8cda341602b59a242ec40eebf1d6f7df35d209d387f46019ee0068) 0x55005ad8c752e35993a0950c007e7b980e627431924deb49ec7e64b910a8facc1fef58333a5c1d6de0af521665922d33451e5d0c81223eef5cd0a7b0a68b6;
  AddD true 0x2c2ab39fd474a9937727289c2ae17f6eab49e9aafcfa7b15379eabd97f22b02 0xb7f1daa63be3fb86402de54b319546d1bd95d20244d7a1ecf713a3949dae71a 0xc81b6f6000a8b28a8040f1798810b6c3c6b393740b24edc4fbe430c25d504cb (-0x9e5cb6f501a8d682734bf802e0c32a44d90c93f5e82d089e09ada64299e795e67075a05ed379a4b7b0e5185125b8f23523ecae87f79ac4b3255dae2147e2be3cdb1a26e43982e773aef0a8ee0f274d8684df6fd3cd2dd29337b84bb14967) (-0x43235fd54c8e9b6bb8518ca7b8d74ac44452a4d2e6e02bc37029470790e6d832e03) 0x127b54ec68be2c7996063c11e01f418d32ca2b8bfca72973b229021460637098cf57;
  Dbl 0x474d7cea9aa5ed081744d7dbda4f046f491784d1ea9aad80f17416f28c1210f 0x188ce283135cb5fb1d7ff80a3df4d25368736c0d6b7cfb9b581585df8dee816 (-0x7d58f067719baa14e0619cf9d8a638b7ece39138b1495183b7670895b7c0a6252c69495fe517c871182e4617f0e39648735e2f43d11d35502aa4b8cb548b5) 0x2b2896c765e8f7ac9ed18f7f174f3c4b05179c8a8f2f3b2414bc9f741ba77bae81f194b737833b3cc550ea40ce0153f330658d5798fbf31dad4ff64886e89;
  Dbl 0xa3b9c7012d34bde9bec5a7b44316b8c94dd4f7b1797f6eced2e8ca18dd8f5e 0xfcd79ee9e8acfd69672fbb1760b624edb2e306dd5b9c66088f010fdf27cc54a (-0xb3210dcce8397476ff06fd44fffa3e836739be37ea2139f0393f3de1e7bb454b9746ed9100d340259f16f7cb6d62020f273e6f3e8fbedda8905a2f099522) 0x114a13d37c89656c11b5af81c28dfa0a2273f49203a6482087d0032d0434b7a2422e7cfd5047523a4f7b4ecd86797bca9777872caf21547423f1b60e10ef95;
  Dbl 0x8c8d722ddfdd673b84e2d67ea497e9924d3ba16afcbbc4673e1fe7de786fddb 0x5fa1642c0c85fe33b6b4155cc1274b00ea7f8b2983d7398f3fe1bd5a968df61 0x88e1c6bcf3daab67fb1d1e841e348c2ce6919625600de93e3950dd1a82b4679b90b49c21bda7477aba55f405b792aa7838711cdfea4293ca2f51b563a6bb68 (-0x5d220cd22ce9e57f235446db96bffce28caef530fc93a716da6a4bb484d5ece216c72252d8bed0d396a9ea562f459b526a1477a4288d9e3ad62eb07ffe135e);
  AddD false 0xb0410cbdd69cb8ac44fbcf6db6d4be3d2a6cc8c3508824c9c045883057aab21 0xb5c27b788a2654f888e6af3eb31f18497508352324e8f8a5048cd051e9ec995 0xfccd7f3677e1237289fd36e554f699e8cbd0e38394add590d5c450861c150f1 0x6823e110f706568f259ea268afd3df77c8e1e8e3d3d2eeaf6fa1cfe175df6c08b3fa3188d19ec999ccef3fafa2328f8153ce867cb6d2997e285f75fdb01ee11998e068bf990eea84247d07c0b9f0979b245bb4a7efa97c02619ff08ac2d7 (-0x231d78ffdb67694dd46387827820352d6b358d179db821aab46b095e8c928c2229fb) 0xa6bf1ea40320c71442c70ff9f325ebdd5c94663f19baa69dddd3424bf60abe372a9;
  Dbl 0x651b99b3cf67c1517c26f554e71ffb8680462fe75373152115ffc22e612ed29 0xcbd956aa6e64706e1fa26ac936e92938e15eadc06727c65f410c4cfa9892ea3 (-0x105e60e6cdd30bc65c60b09060c7c017573308c566404673f25dfc2d939603fb271075d8294b0f2ab66b4f08c58e8f856c1efe26be958bd852bece3c05b3c6) 0x21007360aeb92c0fec657105697e83137d8e98c5317556470e4a269f72522dce9e08a921ea790ada9d6a7b13d08529f4fbe7a6ebbcafd20a1bf1df0fc9ad44;
  Dbl 0x728fb44eef54e07d65ca0f7859aad2a832f498b56dd43dc61103d597ce0b02c 0x56d6db0f1b1add72dc8a75999af2ad9de709a5c1a99dbd1814fcb508de64725 0x36c5101353f161a8c9f5847a737bcd906d16f5669a238e0b9e5ccd55e296d137ff5ec8988310abd094ea5d418bf1e908311d71c6c3048c3b463c3d72c453d2 (-0x29842efaf757ef1c676b9a16ca859bc58b443c06e4e44777d75985d773e2c9816cdfc91c7bba7cba3e70c4703d90aeeaae54be8878ff3d03481b6fc6cf44c8);
  AddD true 0x952da8f1b77dde649175a3cf61378e27ffae51a1f704d5e6692ecbc7a26d365 0x41e6bad1f46312290f41cf566b710f1820bd8de3adf2b3c74947d9da54357eb 0x7231f97a81e3fb47e0959fc84d6df373b542b7a23f4193d74d5842f69400f81 (-0x12ff13e29f4fa3a94beba77715d012cd8adaec3180bb6dfc4abd6fd35066ec9dbf9a07fc4decfc03dc3c9630b05dd66b413ca9bfaface009e52f9e6de6250e6e1daf1f33cd934a08d165592fc56c8520572cb6fee0577545d37312c309321) (-0x56b5aeface4ed771013e66191829b7e5de3bf672c364e7c60fd14b4f93bd08818cc) 0x59d5aa96a34d693075e5a5223afc1c29bda03be7fc96cf77d6fadad3c22bd3cdc7e;
  Dbl 0x70e7bb2a079b905902227f725e63e6ee7af12e29501cfe6e3473532d5a7df67 0x8d0538d920cd144f22eb3e95096b86ac8a85a9f45776a2631518e9751bb7d75 (-0x99e68f6bbfb1e792db6f8d6dbd4a01f309607d12ceea1389e2e3c513c0be07e82edf0dc1793e2bec1322632c8f671f227708f4cadba3fc6645f626852ce1d) 0xc0396e6d9edb93eaf53d54351b13a839bb65a3ef39c00efe5739bd79c5b64f8725011e9304756a420ace2620bb29b07b4d2e7a210281d85d83d1870f76c34;
  Dbl 0x5824febb115eff7ae6961f354982cd295b8fb6cdf37991f606e7929bf227889 0x79eaf686e0935df0dc743817c08d555f2e6b93972847943d77662f3f651ee82 0x99a1e8b290cc127b4e077da7fecd04df56061affb5412d2bafc18eb1611f6c6a951499974f19e4e30ceb9af499da0ead45e669a79124b834c51b2eca40e6a (-0xd47f7eb474cb895daa2ae6629867fb02af8cb8b4a045e3bd980b2fedf779aad1bc22b485db2ae6d3817f32564d72b38c24147c45b340e04be1d6f8709970e);
  Dbl 0xa3b9ff00944b779bd3fcfe2d20b69d4ea931bbdb485e4008d70d18e1cc6c956 0x1667f4967d8f3d838f2106b2389edf592323d453905824957d6e158a65f92dd 0x11b956225c1b4dd3dcd8f4329e3c0a83633d3995928e155a4c0cc6169a8025dfd2c07736f42d556bf2ae186d88645c3f6a1d3b67dabc4a6929b9f2f4509c36 (-0x26cefeccd1fc68454d3b0aba85651a834cae47bca6999e8a851484edc95f7413b1e82d9585207103fcd8920b83794a4c4811ba440cb81630671733f4cf66a);
  AddD true 0x249875f2fb9ba7bff68ca6614d47a36f0a256b11d0fdcff1e0efaedc5559c28 0x8fd1349c192a9fc6a177f65cb5fa05bbe1dd85f9e2f48ff0ac706a77e688203 0x8fca95fbe5402371f33d94d1ccb5c85ef35db2daa2838e621c544fce37d7491 (-0x2264e7beba8a7a899b39783c0329b4ecd37ed78403a8faaf174d9946f5ba14c06a1ad05ee013365178d5b2c6306bcde7fbe80d701ddd2e9889e995f36eee33556440db715fd0c5482cd470cc4d9eaf70ef2dfdd1e6448f3f8fa6ab3baf0f) 0x107332aea53af1aee77f75c898ae42ea878f64073937870505379c24e202e409225 0x1486c076e857b1edd1795612a9c7d3722f6b350c12ec6ca808e98deb1a5b949a25b2;
  Dbl 0x308c42f11acdabacf7023e17bba23545c5da9237f1b2d88f810a1928ad25b35 0x7761e9eaf8218230255ee4ebe84364cc17b38e633d89a50731970216ea53c79 (-0x137c5cdcbfe184646aed381ba2fc7e5fca976335698da197e32d61bc7e37340bf08cda4a08a998704a975005df82f9b625feab75cf13181b3782a14bb6f2ff) 0x2feab66d2bc66b593b556f484a0d255dfc9f22864e15ff0fe87ad9648842cfe140221b70f0b664a155a340ea0e0a5ebedf06040904b7daa16b0c667d102328;
  Dbl 0x4e9292af1cdfb31dc0de1096752d41f3415a9a151283288d66863e13ed92f6c 0xb231bb5576714d325b3ef0a93565a66e0747f9275d797d8b566cb9a424b2d99 0xe42f245ccc9cbd5a5d14b5c92ee090a6591c8515e793345e67322a76cde9655a8f56d5e9cb6452b7733ad8da3be1f5fba3150ed620550750c589dcc0ec8de (-0x2057f62d8e6b6f07d3439fa29a95d4ab5b5f5f16cdf76a213fdbcf41564cb296f4a434b9b3608abf7edae9775fbf0a8ee980a2be464d3c14832edd32769430);
  AddD true 0xd3f232f1cb5fbe577a242e232c0f2e7ac1ee4921355531f1ee620d15d1a1d4f 0xcdd8d29e6d051cf6dd118dc218f0ca2e12ee20c3b3560a4e14fb8477c0613df 0x470da6e46bc7a619a5a1576656b71493b569937aa8e89b5c55798b0118d0afb (-0x4646858ff2803d7f6f9c2f318131c29a79c877e713cde4a88af4f6e35078cf863af8b1b9c1c67c9c707e43938df2d2494dd7bcaf21bb860503a76b5f095366ea0a309e8ff582bc7cd8b03826d8a4c67e4ee372e4cb20aee75c4613da99a7) (-0x4d63bd464917fd072b73c88b634e0cb29ab014df32bc2d089889e94051b652de039) (-0x3d2bef1ef401affaa2092f66542da740b21e61fdeec03457fe5f5950341fa1e97c4);
  Dbl 0xc69c43be9b8657e410a25f6e07401a24118cc1ada1051c02531c965dfd8ed3c 0x2f1c3f07a2ba33ee7ca8987425fb8575ea4fee567c33cde53e3cdef97481779 0x4d852cee6458f34517b5a4246728d6f5b0a126afbe9edfb0552da8292ae586331ab74a7582fdb13db0eb78c04895718bc1e8ce2e7b2b28b1afeaec956c4cb4 (-0x1263453a10f732a24b015b8b60dd18ee9226aeb2778c73930666dbb9e9e11e9887ca0eb2c146a190d551515d200b5e7436cdeb3444e99da3b75655d9e41908);
  Dbl 0xedd079f18adb29a8bbeed11c3c6b843570cbda7d669a2f4b55ea93a0bbb9c26 0x10b68649655cb7ed7bc9c79f0ef1130d0083c9bd8d4ec3dbae80a119df2492b (-0x87163662d941e4481806d946d0889b877b066a5d2e7e763a0ced4bb13d415b787b470f2a7ae8b1e434a25bb30655f77c0cfc899ca3efff2c70e17da5389cda) 0x97e59838e6b0e903042f62e7a0f1a4b386230b7c094e5d79f894f246d2caf83991b3f945b76563befd16c460d6129cf041cfa7d516e99a7475744ad303c72;
  AddD false 0xcfa62bb5bbc7b2fe8f662d3f88d2dfc9fd05d9402a9067d4e49a19d24b4288b 0x5c63a1af7132ca1e830647e334a627d8f8cdd14d4b4e6d52d5c86b9ef32b07c 0x368062401eb8e980c39ea1d92a235066a1582e2555a0430169ded523be0ca39 0xa55f3e733a9f2e1611262c47ead822d9d60f0cb53c04cd0156ddea1d81ef58727e0a8f02ba414d65721730a1fc1151904eb106d86040ac282109d0d222d50d9a2cb42b0886cc2cd665cb0a7dbde01d142d4c47a934883ad07119b74fadcd (-0x1e05ffcf54cd65f6470e24feb9b7327d0d1fc342bee4b38e5de316b91ee6b28246ac) (-0x16f6d6aefb864ebd24f9384af53129daa2764663af255ec78901832ed536b302cea7);
  Dbl 0x4c24dcd561b24d0849f7b4a1db0ba258f307b6e2edfd624ed22851b0ef337c4 0x568000344f967738d097236c316455b074fb6441a4faa4521cdbfc6987122ee (-0x4162b1cea3fbb5297efde2e9420d7c342151cfabc39a613cc4b46d341b4237a4e47b05707b4d699465c05e9f8988d59b9f73897d32b094df5318b6ba813870) 0x4a47402012a601fd177c5d2efdaa5d0d025f7999c28879437187c00f978ed98d3597c7f0da10a362703be3a07becd0ad76686145977eebbc7086f2a868813d;
  Dbl 0xfb5a913b7adfd9c83e0175a9dfe3da9606ce1c9cc4b731136310e9e83f3932 0xaa01f56f1cac088b9ecf19c643d1c3c39c0c85a274f0cf6ef60ebfa3b7b5aa0 0x675c5e1a3326895071446857b22e955dc2e28a1e00348bc68a0fbe5f41a0f2c0c8f9a52d854ec892161b725aa9113d5fd7855408eee50c920f92d4fba398 (-0x45e8f21e5049520a31413f69b6bd21424439c5ac777314c9999282409396ba7fa5c5bda2e91156d1babefd3e8271c5860b36ec32be0e0b610fc769e0c2664);
  Dbl 0xb5d09a9b6f52187f304e220d3cdc2d9de1ebee42597e81ab3c3238b7d0ba377 0x846a8de4a81032e9ac0577b51415d17e63dc52d6ef2f4ed0199b4b9842b81e9 0x4f7fc3fcb1b419ab8b54be84effc1341122b134bb030640047a215405c1fc8faeda1792332463fc8d951a4c7f6aa62664a01443ab68ca0905fd83822304c74 (-0x39e63e3535ad120d754b08a60018a0cb5839e9de840bd0769feaa472b0d36ea0dce7a3daa2ee115780970983daffa32798930096ec72c2c749c67c0e410b06);
  Dbl 0x13c2c615f0abb9a27f5c5200335b3d4c0cf3066d426eb99cb39119dbf12a1fa 0x11b6680d84e95798845d2d0fdb7b158190f772e2938e731e5de8b72551cd6ee (-0x4ae33413657db4813232dd33c191d1096a26c1ac744b64c13f82b3b68e5f1b908bd7c02a5468fbd1a8c15be5adff22d423c9ef4d1c0bd5648c615cfaad5d6) 0x4320030a1fa6318c3f1d78b8b262140ae748d144db598f5ab6e61554834dd6cdce667f9f92dce869165959a5fa05ae4f842d941794f33b42f10b9d68100a2;
  Dbl 0x6718d73f6669763dbe14b22833b69e28084e4a43555ceb285af46719d6ac4fd 0xb5fd11f31e5916cb4a2b5d7a97af716de8085dde2a4e0315b08c756b6c5d05c (-0x1ee96ca87022a52e122f1327a38225b3bf00a2fb7fce98da10c4bcf92f229525b91c9c754c42c9312d5ead769a6667a2ef054b92e5aea6b9da30b14ff618) 0x3690e7aefa59b8b730b3e200c3f6f176bf9cd328dcd2a58745cbbce6087ab440121d275e5ad27e81d71c22ada6f2e0765f5bfd4ff5072f33b58498a51110;
  Dbl 0x9111394499ce32aeb4096598af3f76f9b20943cd6e558b29ec8b62f41bd24b2 0xdbbfaf97ad891fb6ff9e4fd61b5aed9c1d93c5e1ecd08d249c197df3b5cadc3 0x31c8dc5c845c9d6b021caeb9d3d2016b635632c6514d4bac3d7e18b44462f54e98135f47860f71c0d55fddeef9561c86dd05a16915257e92aee27bbc33685e (-0x4b69fd8cbca844fcf123842d4ca900dae64f9ebe483bd3846fffa71ee62528e70c292fd92a2377b4a6432c08a4fe8ad706a86e77f379bed2a557c36f7e2b88);
  Dbl 0xa40c579a888a065f8af75cdf5c5c91a60a9f7d6350f9cf9baa014d003410bac 0xf5095b63dffc078ae07ed29cfd0b7d9405816b8ca0e6ac076f7ba3438c1bdb 0x4432f6c2f88fb28a44732aa1c1800cc4af3ac9787371babb1e1cdb3416533f992ec2ed9fe92889265806b6ba824f4cb21ccdc7e808716ce2a68d8c64b6c2f0 (-0x65de36aaccdc21f4de6c66f04111cc538176a0e07c68c9f027bfc56a8b1b265c364e0c06a078e72f0f65d73ea1552ad245d98c876d6dd594b861cb61850d6);
  Dbl 0xe7441f9d06b8a62ac8e6149294ea55ec48ca914772e4fc840f1fd6f099bccd 0xbcc0f939b3e5012d264eb1edac409ea6b349231d54cf9b1c7df69e6bdcbe3ec (-0x5e23cd1dda186c65d4b497c6b30fd483e087803d5932acc3d60e093e110ae87dba1874bc287eb1ed81eb3b335f96cb240604a71b6996975edc5d571d5bb3f) 0x4cd5acc1d6aea3d06b47458f18d61460c3ad02e701a0a77f8dcfc26c3a3d917b80a74fffe601e71cc80aa7118ec70da80ba0106f4e9d6f1efc1f00d1056acf;
  Dbl 0x9bee5623734513dce5f0575edf996c18f8a974b9e1b40f28e8b08d76d38777e 0x13941c0b62491c951c6936aac0f7bc99f61c87207b53114a3ca082c32098e43 0x5445f40899db8c841627809aea40acc2b2edf5327024971cc8d33721a4fe4ec6e3dbb0476d10b3dcfc0685ec105bd2d40478c8733c33e606f0014061036562 (-0xa94ce41ea23ff5b7e5f7770c9e7f800f91d788621641db46222287bbca62165d50c9177b786ac1f465c86e1410e6452f9ed244fb7565aca1d7bef3ae8ccc8);
  Dbl 0x32842546516b6368f869cb7aa0d624c78570315ada4d3207afbf6091b11bbb5 0xc0753379dd4ee5a3c3c041bd42cdb2bdff909e7cbaf722f3aff8e959fd51ae0 (-0x12724efeae02333668cde4fc588b7b7f2fae779555d855a56b70faab0951d2765260b84b9b64697a4645454192b01b7a19908c07156a8ee428e11707fdc837) 0x46472a5848848d7099a1af7cde908340a4833bc0025138e3180deae1c62ad56c938b681aa3b61893be04f6807a0ada966e8e181141b0abd1b74ca84e2662bf;
  Dbl 0x9e385a84d9c1bd51e43cf33a5baca34a664d3dec87031ef86e0526b182319b1 0xd803e3ca4fd40f67adff27bce6f671541a777a2456738b46451cc93700f5497 0x53434bb912146edcae87ce144510357ae33d3e4a1d2e6db9625fda69c1d5e3f929e14e24f833eb665c16015c8adcdca5b7c9636cdaaa971138694bbdc71893 (-0x71ad671d2b9390608cee3903a64f89c762a3d2b3d3ea51c9ef5deec2d99a054d8b045164f4d86f41d201edf9d3d65834330f1870508aa0ff98eb01d96b591c);
  Dbl 0x74852859145c2e53dfa0bc1cf0603e90dda462a7032343059a5f9e79a138936 0xc4e7e5d2d067711d2fece84ca4e420ce205097b8eaf020714bd4354e55da1da 0x267490f0791fd6acf23a1fd498b540f4a9bda785d0118f821fa567a4c00fbe7f47e4c5bb73fca784368cc794a6f993718c912ae4d48c2f23a466dbf66fa95a (-0x40fc33a7aef010b7a57a9f23efcc1ff3674f8b532641c63ab549a77c779411be6eee239667ed87a9d1d88e36bf0468b5c6979b3ae67ed2b731637dded88e56);
  Dbl 0xf01f629a2e3eda9f4a8846862fb7fe3debfe8a36b70b449f5d95959a99d815c 0x80dd86089be8a64146173e83960343388bf9613d7e5d0d09d756e0eec625f22 0x5c5059817d4cbf56aff5703d6a1ca13eec133961bc863788531c248e9835e15d0ddfc05a5232f16d781657df49cb826bacf02abbcfa683a8112999407ade28 (-0x318aa5f360b533abe4d2df063e1aae4bb1a76e59270dfca69090a435f9b78ac134ea4d0c926517fc562268b94d084f2942b647345d61d3d1c2e3735e08c7d4);
  Dbl 0x6bb26a006f5c25d9529bd545438905769de05905300c8bc263cc7b41d8c3f8a 0x8b39c8a961e69492a130e6f53f6179950a5ddc7537c230f91976d7c91e173eb (-0x437675e4f23d328bb0189ff81e09ac15669ab7af63a410ea26cba84f22a83404679d7db84cea4d447938a1aaa2a82ad4e7d12fa4aea183d918bf3ce369f688) 0x5736784d8120969f7669eeec79dad1b691719ce04bc627adc442b2e4bb20ec236299a34b81002a902ec1f2dda4fab4e095b46c2752e18d52cb358f12a8d91e;
  Dbl 0xb39c262a037f462b0cfc8f7c96cea2a4c35e8d763e1b9255930856587ea624 0x2334e1cf1dede0a3d20cf42ec6bdfe5d0da60575aa4be71bcbd94e2fbafbfcc 0x15561662b09619b8c43b0b1e7938f6b4fc28ec0bccd87b3fecd4fb5aa4e45805d97530e5198b90e284d1e228dc6acdfd3a990228e24c31efc74add06299f8 (-0x42ea933d5e28700209953f4efa88e034cf960d7f8c4e99a1b09151348522eeca8811b8b7b9c8456d94c0e2ecc3b22b508fe41e4deb75dac8afdbab1f06a25);
  Dbl 0xc8292d91ec6784f90f53fd8f8985af02434d5b42dbfaee650e792c83e948ea2 0xe9cf4b86f4cbfa1396e6a2a23f1fd9162bb582cb9a0e43fc6565a0024de7ef9 0x3669cb59248d89c2b277428c7098c903e17d77742b5c78adbff846c9a9b5a1976567ea105bb16ef6c9772a291d1a5d64cfbca20546656f30166977da10c20 (-0x3f8f859a1745ec3fe941799cce5b41dae8d3da796bf645f224fc0823c66d9f29289bc3c0eaa385b5ecfd59ef4aeea4e796fccbe76865964fe9ce8e60c8e26);
  Dbl 0x9dd9728e25e3e20fbe43b0ccd04db0c83c7ef7be211e274ee4c8526d4a32ed9 0x2048862e17b6e05cc58f15b808b87a58057458cce5c10807a40c31ebab4da06 0x232bf896cff127708944e96ac52a0712e0f859f87ae062fc74dfed365a30d78871ab9bbe857398719ccad7e190d2368acbae27f8711105027609aca0fb0465 (-0x7317d13aae3e54a93bee895d93160efcaf3fb08517d6115d97cb18a201811c770f624b26e7784c7f51c4dac635c6a421b12e5c7e7c28a95a193b45717e2b3);
  Dbl 0x373c11deaa7011b158ef8d3ddee434d94266a1aae7739784215f2acabc8278b 0x7a33c0fe180df0a167d223824d5dd25f9840203bac2d9a32e71ad575792de57 (-0x141f1c4d73360c785d461bb822cb9d5c253bca4117b3ed3b7216280dbbe60254847a0133a8dd3d70ad9055ea716d7ccc7f2517d8bbe97a0ff115b30c746607) 0x2c8469b823bb129b0a9856ab3f5ee3fc5b79c5a9aa4ef24cc4fa981b265cff03671951c0d72718568ffa2b437c185af74849f493a76358fa5d276aecd2add4;
  Dbl 0x5cfffb6341ecbb24358b78d7e74a63736fae0f0323a7f039c05dc9102fd3b6 0xe4fca5a66e235153ba039bcde2a8b99c2248177c8532548643be469e3fa5a20 0x10dcafe4fb693b5fe5a54c226298957a2e9935acde9a58b1b440d18214acd4fc6df0a8f835f7cd9ef61a08e2e3f2137c7742c954f6098245cb2b40541182e (-0x2984a970404bf2fef6de5b1e144f90f8672dc5947c7bb7ac136f553a095d09f6dd9c2e704056c5a0a31bfda26bac2700a75b188463030b69403d19b3f357b2);
  Dbl 0x60561b1958e3e140406adf3891ebe9ef98f51553b550f49e48734c4d31630e2 0x58e910c8f68210a33ccbf359e0904a28679abe6234900f2bf5cbcc3d8191442 0x4d074dfb744b450fe0681e34214f5f295c754aa004123e46eefb6354eb34699a6b5376c64de123a1bb4936c0b572fed5493cdbfd4593f5847859228df20a18 (-0x471745c3c15f7f9bbf70e2a970bdfaf44321a3e3643a6b15aa88221514a3372f37172eed7ef4c9a2eccbccd32489264fa7c1dc85a10aa68a4f54c29e4a1678);
  Dbl 0x3ed70328140068f37ff3d018d973001f6bde4e42bc4357e5b60671fa7fc0417 0x1d013d911f928f8f164f731717e71d887a88242d2c0269c8602daeb886f620d (-0x151ac82674ea8923d25845416e4669408fb993b682fc9f577f206458b3a29e6a6cd385fc7125b878752ae1af971a4ba5b24671c91d5c7e4b44790373bb128) 0x9bdbf7b8a1fad413d4ed545ad3f3c3f1828ac5fcc7ebf7627b1fb75fbc74a26ba5c710a51e8982b1a7a89140ff051fd8b39bade9c20741de142e6cbd321a;
  Dbl 0x2d289f32663ec6a226a2149dd938aa5ceb4fc932e523cb1d66994e9411cf9ad 0x5822e198311e35f365969f7e815d8e783aa8b3c79fdc84a2849986178206c2d (-0x2242dcc946112bf0dad70b3c9a97eaf03adbd4607df6731a74756f9d8e1a18ddc11f8116f331f538a30f9e8a375536ce9b32f30af3a000669e07e14777456) 0x42de1aa168138fd42623784e746728ae0c2b600b6db97ff63f15a26fbe47797255d3a2f685d13fc356c9a4ecd8fb6975d0d9ba5cefde3c863be0af10be388;
  Dbl 0xea212f7f9ddf60d670f7d974afc5c1056411441ccf32695e3724875bca023b8 0x89ad38217bb34d5cbb5acbcf7d85c08a5779b725d221c4c1cfffdbb32a8f999 0x147748cdad817e1a8006bc8381d12d4a6dfc92ca87e64dfc74f2005e5578d501cddfc9a98b1ef84040c65bdee655c0d3dba0f919a1893522508b9985d61426 (-0xc08e334a4e042d884ab7be417b9e6784f9de7e99b8522290b7e131043e80819b1ef4b319fea46a9125967ad789af66f11eef28a7a806af876c2808906e320);
  Dbl 0xb88cd07016bc2696ede4496ed48488c21655e5d64385d7d5df72f809c709d4c 0xc9d4e5fe3dd565b78814354a5ac40ce77c67c93e43bc138f50fcc7cf300b3c7 (-0x64fcbe437de1c770cde42dc5ea9adfe93ccf8619503024f9f076f9397164b3527a0db13921d768f4e2218d6ef9bee90d384124475ce1f589b0eecfb3c83f74) 0x6e71a3441e213ada6e2c70829349d90a9dcf3b6fd1b10c8b019d1c3f315910a3284001f093789f0f5e004c68a59ce960b6f76c886af620f2eaf22c042c581e;
  Dbl 0x5a617d67d6e356dc640433e6244e3d232143d6fd9bc24cace619f10eb5b11cc 0x348bb048d036d7bc7d2f828f202b247990d654499141babff11ec58f191b890 0x9356a8d5af74bdf60e8544fa8e810c9e46374a725bb4651aab909507ef4a810147dee7f94aea2e9c35e57fc9495bbfca5276f44c7b4830c0dc152688e5f34 (-0x55a8e5f810835cc0157325ec84a06be8091471e3c5415ca848b6c9f1ea038cd77624c0db8132b407e2a5fb5fc5fda84f498881a19d830781ba01bdaaeeb55);
  Dbl 0x702b738009254d53651730faf9dfc61229f6f2e7d7f632c0f42151c283b2caf 0x11fbbd19d68f6e9ddd517ef676373d0e9131ca629bc88775da2c7f236df8008 (-0x9416e3c8c2f40cb8d940b6b207ed69fd54f01c7a41b9732f63418d8f6a4d82118ef273e47133b742add4399cadcb42265bf999c920590a57556afc37decb0) 0x17bdf9e9dfd2acba0fe47414c735314742eb8b6dcbedca1e44c01612aa6c1e870b9d085f3ac085dd989a95442ba7a76387f25582826396315ace18e212500;
  Dbl 0x4539fab3eab5928816eeb6c88d22e735363653fba348f8cfc243540436ce1dd 0x3f353b511142be630d0a7ac75a9dd5f2060bf76841647fc24aad1e3227babbf (-0xcf2ef0a5531a86b75ed3942185a7b9d2dfd1411991a355accfcd0de19003fa8c65e1bf92fa47d14a9b994dd26abb8269cc30e4476996cfef18955c198b1c1) 0xbd2bbd081840d908738977b3d1f4bf36ef4e99c56a00ebbc4958e664185f5b9c7a6bfb488815c3557b840ffc27cd49400ba72e555e001dd40bf78e738946c;
  Dbl 0xa25e514f88ec8b1784e589dbb96b6356686629e3d2c4dd15d51e73e7b961237 0x63d72ae87b093881edee09b2ac11095b48486a3bb725cf78820381728112afa (-0x1f989cafc70cfb7eac0f92bc4b85b30b16450b4cceb90ef98e1b9e74d67c32db8d89ee4f24d7d6fdcf64622bc68aeb9c9151bb44dd05562797a8d83b04e76) 0x136db1f3b233d85469d70e7f3d7a00c40ad98ae2d144d73bb3bbdb94d4ee1be9300a48ca178507ff6dc06338f53de3a8997d51146a0be397740bdf0b3fba2;
  Dbl 0x8ccd5436da0d2a6b551721e7d9f08ba7fcad918beb1e58918776971426adbd3 0xd7b941103268bab9aaa165594ab4822328937e3e72da4f95394f254e3388294 (-0x23399791e4e232d275634b997d6a6c0bc6c5ee53227537ae04d929a3c3daffab02fd6773e66a60ccbc996d317bbfd8d83b3c422603570a45a9efaa05ef3baf) 0x35f7e77d7fee1bf57c80157a89aea7860737873f2c4667ef03e5a99d6b44c01198dd0e49fe3f3c85ceda061bad616105efe8782fecf223b5bad10e8daccf33;
  Dbl 0xf3c53bcd3c22415c54f10f455aedb0f590bf256c067c249d42cb3e86772e5bf 0xe714c9073fb102157dc59509251fc503320414ab5bbee57914fcf82b90da73c 0x635b6b1cc79a51f3842436292d337f04339b80ebd1b834d914b910c6d9e782c00ca80375b15c127bfe4e2384b1ece176f4b1e22277d2c491c47990f9b36b05 (-0x5e2f668bad46cca24a8d1db7f65b95002a9022abbc1ce8973c389d749804139bd173ed043b4405168acec8cbb665f99eb6df552a3d349f232f7e0ea6af1d19);
  Dbl 0x8f420420852e6b495bb1a4ad7c63f93eae53c5a2aa8515ffb5a09664a1b7075 0xfd3b36a3a2b078384f40bc920af8ad5430b0b0b60585c42f538e474d206438e (-0xd2be202d0124eca4d9afee23504a25bb5296bce106e5de03966b70267c4f414e3e243a950a3675d6b1938d60d27daebfbeb065aab1def7f0e897357b4b641) 0x1748582fd5c0d26c441ae3552263a64bc3bffcc1b8721c0c6b5b82961e740637313fa71a66e38fc32abdc82623b3103845c68b67a62c853258189e97d875fd;
  Dbl 0xecd4cb4f053018f45826e093b92e5a8b9dc10c66e0752d874816129623d6ac1 0x14017ed587df57083d18ea3e122c4fca5f4c6d09058d4c4da6ce81f1f73f978 0x9d9258d0a52f4b5816ff5a2a6f61a69a856f595cb06149c536036d0dcf86490c45fef6fcf6c8b6b797c466b39e876e1f3c02eae14369e9fb64c6bfb31ce8db (-0xd4f802f845f179e8b73b14f2ff430457e51237d3772bddaf17c3982e8be57c30cf6211706911c98819e3fb0cc61f93ecf8466566ddd9cdce89be5a6053ca9);
  Dbl 0x93f21f51c3649dee5bb6fada82e7bc9d523cca31d9bbd5493f76663e8c6096e 0x8f4e8d30fb5bfed29fa4f9991edef89f5f42445d7351f97271ff31981572ebb (-0x7db74b03b382a842f0a2101f9dc97db3c418d7882faab4658127ff5f2ad470238305502e50795d8252c6b0c57e988d4bf8a5cb86a61cdf2a688bd4b6ff2996) 0x79c6298e61f555a9f2859de235a706a5435de3053a39b3077baf363ce2fe1b8dc54fa1cb3c911249b8d882b05444db5fc0040852f8e6c5baca634ecce706f0;
  Dbl 0x93272abb6bd19f11279813f6131a03a471f3b67126a8258152262a52f08f27b 0x2c7efd14f0551c18b08c34dec931a4f88850200179b73a6457aa57ddb4366f5 (-0x308a34a12d8533fe472c83dcaa45afda244be7f2a50ec33ca7a042fe07ec5393e59b5639ccf265eb1d40dca99d5a1140dd2c8292ff6a686e9493a5e5702b1) 0xead6e090e56d08635edd9d6ac883106ea89d34d14379ac026c84ada442054c867b58a54cf404ed4cdfb74a5dd653abb311b9a7a7e06d3f564be6c503ea04;
  Dbl 0xaa70cb4bbec8a7230dd326ce405ce8d822e5831fdd98c515058abdcbba086b2 0xacaba708dbe2c4cd3bf5909d2c47d7767a6a7e2faa3debf031fd0fddddaea45 (-0x332ab26ecf27ed6221a22029d0741184fa865922dd0cd80c5c91482c4aa19ddf11bdf2f924a799a487e786d6aa342d79af0fb42ebbd39c110400307e3de3a6) 0x33d6120674951432062ef9981f244f331c7dae4cd58b211efdc2e934277b631332c287e49034604699e741087fd4c4a0b3ea9c1028d4bc138a8dd87c222778;
  Dbl 0xbbd74e583723771875ae3f587deed44a220acecab6f28e4f7c957920517657c 0xc3ce07c5c09b7310fbcb41ecc3fd4fc06aaaca195927354d320e3ed7cf73066 0x23166d450c234d1fa6274d00b4a7010155fd21e020faffa445769a196b1d61f45ac00365e9a47a3a1080de344d0a9660294a9d6a32670b8e91c25df525e18 (-0x24933fa35adde738319a95528303b3a5a189be7a9ec8575b2a9dcc9fb51565a3f1a095427066de436f44ce497da6a33179003c6e161127bf06decfe90f44b);
  Dbl 0xa7e0a02f8e88da155f76f9837a0af4b70d87c640a6d1e0e7424db0e487baea8 0x8029c76bc0007b355f855f7142c83fa57cbfc58511c9579eb826f003b5371e4 0x7d38e43114adcbb242688d45b5cdc5cc5a50d6b6ceda37a2ddbfc8fb113cd3be6ba069bc432b2ddf9bb4aa0ec630a4b2f06c134ca831b310698a61314f990 (-0x5f994ad075a6638296e828769c9fb5ba3be8bd0d77e7161b91d3fd38256ee716e7f8cb137d08318391b41e4c2d700756a6ff254b172720a0a65dc9ab7a42c);
  Dbl 0x4dce069471375c256723eaf6dd9596980bdf0f7800f2d0020e12df977d6aa4 0xbc42b76422fd08db102fdc21334b2b9b6be3e5af13f8c70cea7e9c02e59c363 (-0xdf54146ee583974d845a5a197c549adaa5a9bacdbb148c27049da2b6148450548531b7e1080c4be141c3ade4dcf3ebdffc16a4e2b1835d93a3e504474e00) 0x21c609c62d1c3fc61f88737a3038848484f6e4869de7b86adce13edac946c751354a7e60cacd69c329bf2d78a26b30f3b19eb6ad959d28f8eeb8ba547ae85e;
  Dbl 0x72c233aaa1d75661b43a59b24ae13a7bbeb803b05a34995f3788550b39a6e30 0x10b4418d898abdbf5df01fb9d5de58f46d86a595be21835edc9ac3e95c5ac3b 0x3e053743e6ed06ae92338448a2ba8b027515d44059d7d302ad511f3205fb6621421b83ceb2741edc82c4a16c7c3b6580380064de095bbad47f435a72711238 (-0x9071191e961fb0bc24a7b732bb9d33a3c30722ff986b2c739640649d9947ca7641ed150c943c5a696dff27fbec3de82187c3ae2747201156ebbaa1d9e3e5e);
  Dbl 0xb1cf6d9a611213a1b7ee38bddfb8eeebbc6d8988af3ea5900aa5178d6dd18bc 0xe2206724ce9dfc2576d920df5bd9a71f9ae0e939414148abeb949b28c1407ed (-0x22f960c72d0f60d1c684fab3e0cecee8f31c362c1008dc75951b5d52d29037b50367e0b7213fa36152f971f9000d43c470cf3a1029acf9eddd57a146f8c854) 0x2c7a468fb3b47f7b8d03ed4a2f7344246b400a89e30075a7b136d5e0e2543ceace3de639746153258a181ec72e1fa4ee312a4bf32f552a73646300434c1f8c;
  Dbl 0x2da99b67b7cc1bd3666e6715ba830b12364a8de084fd4927c3a4bb3652c6c34 0xb805ca594a94fdc562033003e4dd6a43c06a3e4037ad0fd77d1063972afb3 0xd992f8659eb96ede51987977493216377ab1e3a41a8500b46ee85f4cf7a94796e6cda465b0f536ab38363aa147a557406287c76ae50235ee2c40cadcc066c (-0x36cd60fd4fe4853bebd58c530fae02a8f28ec51add2ab45c979297fc774cf8f87e957be0b1f30ebb6277dfd5c4d2eb5a73004ec6a33e584272d7a8aee1c6);
  Dbl 0x58a241b228e8f00e1c6299dac1f2bf39634e928e96e93f18fd53567e56eaef4 0xb1e45521083eef240ee6c24c0d5e0dafc2911e0366da0c6a4b21efaa43c3860 (-0x2d1b9977c1fee75c0d965075dd6963ca54ed085ab98654e0376c2afc04e80da7487253433d6a923581ae9e75166fde91d745d76e6f62e190835adf3efb7f4) 0x5a8888e367d4e398c97bbbf637baafe40c52a0f77046253c5bf0ac0eeaff4c297ca84ad80031497c24605066361a6d3d4f0e1242aac1534df13f713f8ad63;
  Dbl 0xf792e0feb92500450be67aa6605911a16cb36d338c28c049e7a6b722d94aa6 0xd2e3d8fc0ba1aed44546d84deb307ac744f0301ccb93ea49c1fcd270cd469fa 0x59de8c48f79f83dd274e3a5ed60d14292e7daa072bc608ddddb40a0330a019f6a20715e54a6fe9141a50713e958669bf1a602ad512b5968b21532c180ee20 (-0x4c8d99f648e011a23af116270ed09278b9b4bb13f26028e9f650e08c0f1a67eaebd57fa5a43894c887cd594e29c884490f6c2c15c5c0ea99426cd867528c6c);
  Dbl 0xf82767cf7972a215cd60925b209c9dca4d9adcbf0bcc29f30c685c7c0db844 0xbcd661a28bd5da05b7eb2344a6aae9e33818ca9bb918e15f3d4f6372c604374 0xa77f6d9b38e47b5ca35284cfaba2fb84501e731f21f6d124c4aa285dfd479ea514249025be7bdf8fe9235b2c387d368802c4d20ac9f199ba557f86b3cf7e8 (-0x7f75e98b4877a51e35d0fd4577f973047e9c155f7adba56a7f5e2670485c073348109243d7bd4e1de691b98289e0ddefd0363fe3cd326151fed752521a8e60);
  Dbl 0xa10abe3cada320bbe78f277b6171b502f82da3f0a51b060bc6fc8080a49b0ce 0xd01825a3dc6f7ae4c07a05e427b70f2dc0b681051014c863db33bc7fb7597cf 0x57090d7e7dcc3f0e6b8a87089de972bc04be26c8323ca4044d4116728c594bee324fdb2a92c9b141febad518e60b631fbcd125668e1506d151d2adfaf0c6e0 (-0x7077023473dd657c4c71efafee9b440d8616557120e184a42d01cc723514cec95edaca87e5b264e25ad9dc1a8a35f17484a05e87fb8f0928e72b97b3bde24a);
  Dbl 0x8bba9abca7a460f1aa59fe94039cfc067a2e47b54c1d88d373d08627d071bda 0x29b2bb0e0d3cf6bdf5811e3d651ee12caaf5370258dc4a926190cf6b6e630c6 0x250822665f3b82ca36087294975b7cd5266cf8163de510aaaf9dd31ac7e4d0034403937ce47f7a218cc1bc402d021ed3e0a9bf546a797f8d6bed5c63ad4206 (-0xb0d1455a50e0fd7bf8dd9ab89114e52edcd4d0b8f8319928097e87783194e1704e896753855953c88462be5e966fe0fa2cba6a2d5d0e927ddc04a46518a43);
  Dbl 0xac97fedf04a7cbbf1e1c3c3c7729852ca5141497af2a193ff2e64e745975dd3 0x61e32571ac03810735348f6d2e0d4554a67afc837696212a3d004126b6589e6 (-0x2ed6d69cc8920c636cb2ceb793eff97381a068323a693f9c7d9fdecbd55481df5f8bf69ef4b2dc4f0e3dd807a8bca97d3df7f42cb3c575db8ce54720c47698) 0x1a90a80897e748dbc7dc9ebcced1d12c62bb4c41afc34ac33fb6b28853d0ba81733e48338694b6e12a26934907ff5c63f9c7a517ec2b287ee0d6bfc601a794;
  Dbl 0x3fd3c7e8baf49bab28c23d6a794bcd8b4f96c93d33ea61f340096e50952dca6 0xbdcbba2c5b169b1e1b13e6153e09fa4bc9934ff832a8a5d69a0523f2ead21d1 (-0x13ae08e29b588d879703c8ded70aef7ad4966ba3fbc0ea01b63976c7705a4307f96db8ae737f709f4f4711c95235ca03aa324c4e668f7c9105a49460d6032a) 0x3a85063ec690db7cae4d1bce159db66090babaa17962ce3e8d5ab322f7246ae6ef26b17e0a0f5f4ebd23f71095861eec25358808cfe73c8d4fcb1b49d98fd2;
  Dbl 0xdc251a6c5abab0c9c599172a55322aaf9bcdc750ff7aa632b46004751ef3d34 0x651a43c993d26276ed1476b95c54a53e74de30b272b9e78dfe817c78a792749 0x6b51dad434903d107e0695a78a6bacde30bbfd299bac900405cc2689a970d4cfd6b5df93af1641f921be03d02c58548a79c97edc06e723b8564c8f1336d3b8 (-0x31497f402eb0f2c3a3f7b58b513aab9f67ba628bdc49ae463d4cff4d491658b95e85632e23b385c30bbde6807f325426e53fb8234245be6b5aa93fe375a538);
  Dbl 0x93978cd1215e8e591835d405e39bef140fcedbff7798bc3b51b4a2a22d59969 0x55d9c084b271ea110ba6f2601d714d8973bcdd93a6a3f8034a29ad2c02f4d7a (-0x561fbd65d87ca2fdb113ff28f27575c456d7e49f7d789e4c3f619bb4eb82b3cf7280a0d5927a70f11f0a9dc838647b8d5b055be2ee048863ac17da20877a1b) 0x32189f4f26b0b9b7044cd134a59e4e98ab70e1b452baed635182cacb33557cda09196b19d524caf756612b1537682a3c3991bf4004b59ffe09084e6ce66edd;
  Dbl 0xec56867d9fd21090e62fa30c0016ef6635eb2a0060d6a6d9872d20b05225b5a 0x36c4c71ec298cb3b874ed135f5673a52255464d073a3f7e9da82d4a941506c7 (-0x33fa14683618b47441b3759620cc5dbf2586e8b12a7a9c772de48197a905ec9fe1249198abe12b502437be8588169f8ee16092456407181057572935b4213e) 0xc0b88ace4fe36ef0249c6b37ce956fae987808afecbc10a55d4eb6684fd8660aa6df3433abff30c7879b97c957323e7fecbcc19bd8606a0d21d3b99986a64;
  Dbl 0xcdb26be048b8e279c71417bf8b0e06459d431b2aac20d04ae1cc2cd02062948 0x70fafe32c568fe4124896ee1bfe4c62eb5b084a8813e313d375c31fbb4300af (-0xa5e60670309ec4133e7ccf80b883d167f02911a22f4b1f1f8f0096a03fbf6c774febfb81aadb9e930b33e3a2a23330c2ba29fd1894fe8be51f4c47c5fde1d4) 0x5b1ef2986b110523058acbd9ef463531be9c2c4b34861a0799b4f5168df1e0458311d5f11722ad6d2a03954f0a82c347ce457248ad2086f96966dfc2bb9cfe;
  Dbl 0x201b45b6b3b33ac6785d830cc31feda2dd10d602d85d7c1735a3ac46f60a213 0x92a6189fbdcaa91f7b175f800ce4f10119f034be20c86f911377e973248bf1a (-0xe79a0c19717e74813fce5c25a971734908edc6008b117f5f00550addd55fedb61ed6db75869c3770090ce2c8b4b3a0c0bff5c42ab07c8570eafa35d8e8991) 0x421db66d2e9e0546a1dd143f163f76334f778a54614a57e18992dc50b72bd05fb781bc101f28bb47c20bef5fceac1d4c26c6284f05bd49462eaa62f8ee3c3d;
  Dbl 0xa14e8db49235766ee6d23a3b80dd6b9af8843e980d15f978de83e5bb3b6a741 0xd4cd076677fb82f7427bac107973bf5d87e655dcb53c62e47a5c355d53fc296 0x32656d01a5a44f000f3d8c7daa59b403188f30f5f1d9b7aa209efc59d87f85a929ddb9eb98da876683d22ffd18e3898a3bff191d25d64bce7ce13090853dbb (-0x427bf3e1fd21b3a70171eee24e96901c983277a4e399c4891d070d371bdf32b75c7d9fe1c84fe524c344e7959091705078792c8764f25d778884df6d5512df);
  Dbl 0xe0bef866cc80525685af877e243dd8114be609d0f1ea134940e46cd491fe621 0xfd8b98a7be3465c996537ae5b8805f65e4a763cb9fcc2c2241aeca55fe63843 0x42106a9c69b9d8d9539595a1f653a48969d7870abff8f4818516263e24da2b8220648922f706b3e5780f70471d348466f8758f52d97c037108301ae1c75513 (-0x4a8799f482a8aefa9fa4fcfa137f81509a111259c4fbf9dbbd61ef37c75208de9d75e641d0db0ec424ba2b67e2277e46abd463ca2a45f1784838ed878c14e8);
  Dbl 0xc29da3cb2ac3cd004421bbf6140815b35be770dcfd9bb1f7c35f45737d5514d 0x6ecfa4c3d5a1024862913844e139b9f145f4983b9a9a69ff982f1190dbda4e4 0x28e797fe2de2d41c35eabfac451d9ec3e961d88e7c75581ff4f2f6c7bbb80524a6554621e4e4994ef401f46679d905fb8bc7ca3ddd4f48e90a8117f04b82aa (-0x174a5b938205aed2fb22d2eb6306f3b358150b5e9afd3d17cc4444f2db805a9a82c618df128ec10dda28ea7e0942f6b45b89538091b81cd0ae5987bb725c6a);
  Dbl 0x519ac58ba83cd85361b45c23a83f0cf4c3e6e14f6039e5224fc1d37503ffd35 0x307b1d2a52fae18d24140cce4c8d9a703a684e5cd706d08b8582815a52948bd (-0x1fdf3f1a2feffe575b1c20fb352dff0c354d34d2d4c1f7a079e719f2ad65182237a99032be8cdd24c334eb6b458ab3914baa4c500bcee7fce8cc144a9e1609) 0x12ef5f2f6392d3128559a93c09f551dd7e0431a0f65b07a5f8b69f39c8cead7a354d6fa840509e6540caa9d7b5ded555310053e3dbeb3e333950aa2a5969ce;
  Dbl 0x426dddd0060b32cbc100189b6c55247bd8eb1c4aec22586a853a109c2d83801 0x7a45d12d617c52117566946a03c9b7beb3df73a8269f0ef36d7cc15d92316c6 (-0x45e1d294009d1195afa96001fd1c4f7a1cdd72c3fcd96cc5290f45799aff0d9aa9998632c4d8a375e159ace4f3e5a389e3aee2c285530d50e29cc28c1d63a) 0x80a0de8b33803652aa98ef58653a11f40532e3be45ecb9dda57b5930f39902ca10f5aa804de58b55b0546e1a7a0434dd8003e5efbbda3a02048b66fe98712;
  Dbl 0x42cf682d8db0b1305cc953c21ef5b21fcadb59fbae8074bbb2085df74d8aee1 0xc1ca94db08b331d6623cc1edd0d06c2f40c5e700481259ba7d9ee3a2c05720b 0xabe1f547671aa4299deef5c0fe69c61e01f7631623a7b52721bb963d2274026ae66d5d01a02a216a3cf1c8390f05a8abfdab471e7cf14f0d8e4dd2bfa4433 (-0x1f29135b9dae840bf78e4d9eba18bb55afc7053bb03f15d9b8e8226655299f79481711c3817d91ca003257b3516f919d899cb9a062928b6e7366b8b53f8bd0);
  Dbl 0x6e6fda71bc0a3b09dfdaa0e3e3dd123a4b309d5d8610206fc87658c988ef2cb 0x972b2e27e9ea6feaf1cde15de9ce1072ba97fe6517c83b6d34d37a4b10bf5f4 0x37c3796963d8659caf4b3876f313a5e76a7ae530781904d53d060ac56d4c98699620893be5d50a4cadc166b90a05371481f232e918ea2f10fdfca1f0c2889a (-0x4c549b312a7d50d9157ff0f5709faf3d69f74b1ebf29e6869946ce253d8913b08dad731fea381b95bedda77e32481e09daae7ae353918a2010794b6c7ec63a);
  Dbl 0xde50ac61c9eee4ba4f8f495e68d26ad0e30db53ae79aed1e5a64a20a47a491b 0x81ab1c577ca9cccbbc1e4d067e2b1f4d1dabb9bdb873f54faf7388a6ab7bfd8 0x242590db81f29bb8205f39eaa6d57e7a6bbee084f35a12ead16b3fddc452f64bc26d352c5470a12eb5de971dec1cbfd748612c810352a2bdd950627da45629 (-0x15154578d34013f80279a58ee30101dc0de7506b05e39bda84a194298d1035e2478a35415b9dc3767b560935804d03abab2e3aed6721fa0fc8b91710200125);
  Dbl 0x515a2ae52ebd2c564b697f18872e8c42e5bfb4961e0c13448bd27621a852711 0x1fa07a1c61abef72bb9681c7e60b8da9cbf3a78b883ea7ca39fdb0eecb0e66b (-0x287ae9cbc59e318bb9b19986a7d52fcb0d29ba68bca53818b9757a079e0f4a1e10e8433101c1c63c587c46087581d26059be03e1768aafaca6a7ca60f3287d) 0xfbcbbe5edc47f577ee7ac401aa85d81f7b60de316c8d72fbb47cc63a3c7d1eb3a15a25dd89eceeedbea0d5d801fc33ae62dc3030910c0360d83f639d25a70;
  Dbl 0xc028da8edcef5388173cf60f3ec912719107179d2b6b8a89f21e1cf90a30495 0xc8c5c704394f8fcaf6bdc38a87b9b5543cb39996137d47a4d008af81ba81019 (-0x1078f215dbea5d55a8438b4eb1cbd0f876e4174e59a244696f37e99dae8df87ce5152ae9c1a8b73911a9f5872bb5954d88a7ff9777053f4cfd8bfcbc9ce5f6) 0x1135f52d0fb67df1fdad833ca5e5bcb4dc135e75ed778dfe39d994878289ae31057783952434402d9d537e17339d65169b7d48053082192a2563f12123ea80;
  Dbl 0xc37bf879787f908cadfc1d82326478171495091186c224024382f7067d22819 0x1f2e39b7e94a2dbfe8cd3eb06e96cff3f6e5e69a3f6de361adc1f1d280c9861 0xa184ce58969488ab028f408e2392e801f394e5de76dfe9d87c48ab11e2f98ca59029acee486ebb8ec3258e6caaaba6bc796634b3f864f6080fde5139b5796 (-0x19c34f5288e77ee941b5e527c8fd31a0ad44445917301e5487fd1bc4e30a97b36e0acdc3d6918cc5780892a5d7cc3aa52d0d5b54e141fe24c7d889d99b9a0);
  Dbl 0xedba0d1f008720db8a4b038cfa2a8ac92f5ed6611d4a2b101f4f0f12cf81f7 0xcfae8cd631f4f32694a8c7a8914b98352ea87567760ed1673ef38f1202ac460 (-0x87178cc01368d0353fe24e431730021e4ab5c729cde017d3aeb7a78cb93489ee6218b844d23760b5499b9805dc6dc702b21f210dc4386ebe7739c15d8b28a) 0x7604bb91e71166620f09c665e64b4893dab2c8a59d45cfaef3890eec9d3aa1c38bf3237c62596e9fef48cd3ed35102d8bc97f0d999106e2c1908da9fc8fc06;
  Dbl 0x3bafeef43cfa0eb506baaf1957629f6f8d77328c29b5d14b095ca134dfbffdc 0x4fe4463396621517fccda92b68615b268605d62c41e4732c9d0691508c578d0 0x2714d6655f0f7d8de660addcc5f47c4563cf61e1b344bcae8ac4b55b7337debf89731fe79775166e15310c546d5e50ba018eb0f43709c785571d7de7062634 (-0x344f87906de4ba3e40bc8dd0de3cda673cfd00cbacc73e3822949326832e89955cc5f0feafeb575dbe9f065bf0963d95889c3d89d3f7b94471af1c8ad04e45);
  Dbl 0xb5f6ae195c7d4dd26765b186b84888ac215ff44ca49dbd316229edf1179cfb1 0xd39cc6bc7e047bed3850cc4929185627a1e975038c75ea6b12de639f44af1b6 0x7d486894fe2f7f6fc0d02b3b8b60fde8bf235137b531666421ec3daf969d4cc977478341955a84fb4e25583c0fc6b6b39aed159e0ee7045b03c1367656330 (-0x91b23a50dc2544c92061add3169b9f9bd0168c19b2bea79b19b457a338edcfca56e0af3de5692099d3262b8cc582bcb0fe512aae6573584540dd54e5203d4);
  Dbl 0x39d35ba71432c1564b569c9da95841c19b43a05adeb6085ffc7866db7530efa 0x55451654fe8d8d7d846aebda4a6f067d6ecae700081d6050da918b376a963b5 0xa4bd2ae3feceffb24a9bd7d81a9d1dbbc88e33273ea615a020ddd10b9774841a4b0faed68fbba5ddb9fb0ade6076a98e9d8a8276e8dc62ca78780ddcc2e0a (-0xf2ecb60249e3f0f4633b2a63c241bd58ed57480f1114e45bc8fc932c43e4ec3399e1e94eb3719609837a142337d63f8baba391af6e26d4f7a3013e05eb122);
  Dbl 0xd5d164a0e9ec08e14196580e281b5d5dd41eb5a3a8c97da4ed90b12f25cb02b 0x374d1d68748c3de3dd1f885f2cd8b6929a7347394046b8aa88a4f4219c616e2 0xcd00eedd8c8cf7486a49c24797011591b3a88fafd0c1d1c1c380d782d378e224479fd3653f75fbb4d819aa4738daa25c880cefa40f9ba2eec327ee05cb7ef (-0x350582c640a08d536abd389e765fc6659624ad6bc9e0f3c2584438e0ed08e01bc3d2a49c006751214b22691d7dfc67b313808858e6f45e09b1d7104bdc38f);
  Dbl 0x98fb3523b532fc4a6642ee35e90586422731d00211a0f554628292c25e7b64e 0xee87577f348541f46d1179caaa7e93b947636c6d8ea046e685ad10f902bafaa (-0x6394d3f903cdbe6da22fc1d3f52a1b8c68da34adefe9a53596a9aee5e6f506c30bc0198974548ff1bbe69103844772ac50a6e08ea38951dc858ee60797951a) 0x9b447649550f3fa52cf7f2bae3463129cb3c6294f6fd4664cd23cfb1fe0ec81316beb5c6096a0b3c9b6c93041b350ed45679abfb0fed7889b77b58129b11cd;
  Dbl 0x6aa447e955a35c8e56944b557d4c2d7be2bf6e68209d8f92eca5c33e028d31d 0x9673333691b6b4f150206b1d7272380e0284b89ff252e565b8f359f1752bb3c 0x368002cf72d1c6e4ce5f5a52fbbfd0cd8e7849048da181465bb64a3c179aa53a39875e00b071b38d4f3959ae12c4de6bec3049d30b94944bac6f1b2df73c28 (-0x4ce37a8316897a278c69e96b9d7209b5521750453a74c0aeaab8d4cf43fffebdbfc2f6f98e869c054fcc76f650ac1bb1f8d0d22364de03c16b303d63a82a70);
  Dbl 0x81515881bec2bca5f6b32c02e57a02cf1f4ebd9e60fad5e4b65c41fb7a08c2 0x80af32563cc334f520f341478aa6904d8fac89b1a84645bee3dd6a64d452438 0x163958ffeba9e512cf16fa3f37017ae8c54309ee14398373a7140f1bcee213481c02d88da09a9b19bf19c7625552d497f1dfcbf0406172855e63044b0554e (-0x161d7b3bd6773dbddb486c7c77355b8879c139a07ac383451f32fe7c91052a1056b68dad429cc01974837748ff2eee17934492105a52afd00d40394e60f415);
  Dbl 0xce8bd10a2ae33d91dba0da7b4e66f4c2db1f16ed71de5f1f578ed4e610a8fc5 0x9ae63740a00f2110299355712884da57f12d2b8a54d15d0e461e2bc0388af86 0x33fbfaa762a8c66b915ee2948504a597541862fce39d22dbb18d8fd8c083110725b84a6f4cac01b36d1cbf41613625c0ed357e93787cb036207a8d60bc01fc (-0x26fc5177c34d7ba76ade1bfe9cc44925e19260e33c7996fc16ee7f862803d292ed130f62815bcca4951bdea7614415be1b72be1b4e014575abe0b81be3cc20);
  Dbl 0xb5ca7bab36a45c8d4dacf99fe2e07e8417772631649b4634ea840513dddb21d 0x9a51c77d450ca3f159b7e1c43c5f2d4ce7ae59a156496e355ead9cd76cac493 (-0x33c833b88d46ff61072350a221f3758caa0158d182836f4c177d1375affad335c667383dde852f6ab9ea0e80fa40acf66598485e4ff46b73edccfda6cecad1) 0x2bf4fab9db7685e89f59e3cc1833270399e9388673e2574040b299c3842db561af9c51f998ba35eec805040d93632b1f27c35f88c6f1f1d9cb5cfd6a3084f8;
  Dbl 0xae7032e7fe04ddb04c12e29e9d936436cf90e3595ec0c70ef73c7d81849f4b4 0xa78a6a535dd1964bdde8d20c8e5d09b4967dde900207064e4341f5c20b28afa (-0x1893ac42d89d509a6825f0991420a5a737fca35ebb99488854aa9b7affc526154eca4e7a3a90ae0df89e6ae4fc60d213c4286396b0da978279813f42374846) 0x179ae3a5562c5cec5356439368f21b3b355d9a8044a2cf37eb4ff86060fbc335383f6bdd03ad725873f8bf5c55f003800b08dc33d352ec6ace93eb3b1418ca;
  Dbl 0xd904e131450e07b98d66c7be52d49eb11dee0dda629b3deb9113ca69654f4de 0x2a41476843f8638296ed62e7c9edc377f8833ea8e4499d0d19d6514e7d22cd8 (-0x7cfa75aeba312191b73422802eaea3293d05c3c7854cc52fef400a9f6bc924425c4d6444ee5be18eec729233ccb85ae662961fa5f78f3a66ba9d051bf3718) 0x18558682e6604ef004ac360927dce3017b33619fde2af72dfd5fdd102bc25f98acb5cbd77d79e0d7db015bc033d9fc911645a9265deb4fdf177c62dd4370c;
  Dbl 0xe53ba52140054ebf122f1ab380a81a9751bed6974cfb2fd7ca4cf8634229026 0xbc864f2410457dce78be5eb0327aad1673b36ddd2ae6d83038c8b61de797ed2 (-0x9e7e0ca0dd144c6066026582fec3ff3ca5fbeea66f8b5effa844c6c776aa27ba38ec90849b0c5d6727390102140e1600bea5133974ff0f9287edc661b07898) 0x8258b4cbae1d76675f69761da9c30681514bad638fe8b7a6beeb4b3ba393caa0e4c08a25456d4081cc2f8c123106fe68c7c2037d21b9b65aed8af724884048;
  Dbl 0x24cde8348033d6055e3b47d4d477cef82a66aebd43a1ff9996a34fe6e8fe371 0xcf4989cdb5aa949ca4cad46c6684044c6008e253c83e83b5b5e0889cac32bd6 (-0x98cee7b3a11a1648c3d07c6a52472953ace6963dd11af26921383157a37ab09e2798924b25423979e877c6117b3038bb3a76c8cc52eca936e66fa773b4198) 0x35ca34f9294ef1f275c68a25c8d79ab878a4d097be710f52e89e30e0fcc8b8bbd94d20cbff8891240d28ba5333690e37d054cf9b37d62ee141c7d362950b94;
  Dbl 0xeca1e064606a8f10a71dd06017d32e29fa2e5a79c2f3a6f037466062b3c2379 0xf06aabbf0e8424dfc4e0271a811f9ae6672e817bb0380614fc2c4481f6d8cb 0x96412f81d6134ffd0f0a8f9b50dd286c1518d8245d003e88c6242342943dc35edfb30156650dd06db8a3a94aebf74f5255db704b14409b5f4fa65cda4dd29b (-0x98a8577ca1cc5a255f4e5a92eb244fe51cff0d44d64423cf43bdb70449c8c379d36eb3877ed80325931168d0d8aadc56ceceae6efccb118a7827c3e23bcd0);
  Dbl 0x9103f81f3527b90dd71c805a4bb2a0c04258e9816929b33f3fda36208aabcdf 0x7e2cbaf9b93cc01043f890c9c826922517efb465199278ef6472fd7fc9ca9ba (-0x7b6754f5b3bf6fcdad54d6ab3d04d28fd6f9db034ba5bc0b03ed0890a412e5ff4e52caef7da309b23c49d411acb06d4d93ac396b1d148c9e9450f2822e3da6) 0x6b5ee837268d1a473309b7eda311d2f8fb5afab6fd8bdc83d7eaf6b787a4ddc04a092ac050aa15c1943c3b5693830f931ede5eaa417a8ea3b63b3db068b4a2;
  Dbl 0x11ee09449c8cfd37e589459efd356ce969f48b8f7b21fdd82236daf3f007e64 0x2e62538af339c69b53ea3accc4026d48c3392e2db23051ff40a23cc6c6a3b7d (-0x165db49f81f396f3199297abd35964fca9d456300cebf542dbdcffaca5e382257b81b969490d56a9807cb16c88a44abf831a91c171f075e5a499272f2a0e0) 0x39dc4764e9a24c0c848d1484842e54cc10669f43c156895f06d739b4067e5a62860d4ff801b6527b667996f9530174bc12d293bcb08dd3fbb5e3bf7b60cf6;
  Dbl 0xf52db6bde271947ae61a594d9cb7fb3924ef99d348e52bd415f624764247b75 0x675d675ce55148ccf689b0daaef5dd1d66ad8649fa9d77b2e3d5ea9ee8b8282 0x6d8a5f4b781fc644da06c165f3ef27adb33f1e2fa5fd72e0c4b2239ecd6d13d34ebeab967b0722a56dfe0900548fbf046bab8655cd27cef962834e906ec19 (-0x2e2e62f873c8b93ee92c3dcf0fc5653f71e3d5cbe35a29a063a3f5046948e6575c3c4f4516264b28e6a5b9f29c36d90140752af0b50fce01fc581cb8d0ec3);
  Dbl 0xdd17eac0258be38c95df9ac7fab544e9dd6d2928247134a793c9e722d88f2a2 0xe7f5bffa14beca228e69dd4f9a10cf8aecf3be06ad525208b63efe16a76606b (-0xa6c08242f8fd74cb076b09a5df72d83b2557e04348c4d0e6fce3ed9a9e9f34c3ef4474d1d45da48c9bef7273adb49c2a8ee45a6d7ffc811964098497944096) 0xaef29bebc768c6b9d73ab50c2a7b8c321511bda76006b249d9beeb75ec75a446486325e85d3e855db5a0244927577f4fa6cd9a88c3af58e3fc983599e50c40;
  Dbl 0x677835a0011ee27fd6364b0825a38daffa57afef24d0355d941a13b236b6658 0xc30c9edbac07645ef19d72f6fde1a19fd51c0d91cf4f80d7b3b60073066a507 0x7c5d1246cd5be6480e2f11419cc15133f1691c6422753516c975cd9eafbed1912a1b69572713c595afbee7b3c293f9f4d087e87d694deb42f8c02fc2fde7c (-0xea6fb2ed2aa79e8237b275a8eafb59784897d1cba7394f46ef91ea5f304bbfcde35f079ce0857138b71f7e4f9d2a0959ccc78cb85c021a126fedf06f173ea);
  Dbl 0xfe740b4204e8194df0ef80d3a455a917864300ff3eb43a746a77d9beccc1a9b 0x18b118fccb2096c2e6cb92288fd5cf0121b72b620f951255085b741617411fc 0x6a251ad536a5629f8a0bc0fc97a4b1432ddc96f2214d8c4ae4ab03e55c4a2c09f06d8ce95781284bdcd3529e8d2cbadfae8af7c0bc2e02f68bfe3b0a043327 (-0xa4cd6f05c5e39d4d532539798478f634f4796cdb1483565860218ce26991c64fc12ccb5dcc705012e24e220a8c2894d318fccb701a5dd5e4f3f55dcf450e9);
  Dbl 0x7dc9598fad48edefa1c81c14736b38bc28bce7f7d080794af129f08552192e5 0x30ab26b4747c61d7c5866f5d6fbe3b1e3ea0a3d030db0657a81996b8c88fa9a (-0x7b19d88a087146de265f5535b36c180b3a00e874f55acfef3ca1ad5c59b2d1eafce5a1c1e8e19bb5da4916439d0af32b1550f8968a40dd2927a1c7cd0c4d29) 0x2fa12574ac808311aaae5a9f5f2bb706a0c535ac2d0072e08bc4085f65902a5f0ec0c57a37329bcb0fb7b6eb3c053923974e00410102dcd7a0183d80c9dc69;
  Dbl 0xe2786d0e013430163a822f8a47f357fc2689f712ce471b1c8c9c0e647fcc347 0x63daf3760f2bbfb18f5ca85bf912fae2a4ccbb565c8c45d0389e8c001d37164 (-0x2e7dbf0aa4d2a13bfada7c58b4d99cc1fe94f788ab1578733b67ee519b35fdf88cba0c03c98349aba25009f08e4955f0c9cb321d9cd7074484307caef9fd33) 0x147fb706036f7e76297f62da4e6b3431b79ebcdde28174e62b9714215535df701093f2fe8d727f701e3d007c6a65e6dffdde45dd1b9a897e158bd20e48611b;
  Dbl 0xa995004f3c93cd14dc4bac0097e40169fc0f0ab8290244d83625041a94685cc 0xf968ba2d5e80c40bb1bc743c666e3d4e90879c3d306276952f46cc5741e5d58 (-0x6aea1fe61e7d90f636af519d6db855797294ad67ce735b8553fd383286447cadf6e7c4ad43f4d04f9067d9a502d584f72f08f1d5d32c304d56b366675fe554) 0x9d3e03f3af5b97dbedc1d9e30433e8f2e57abb9348d04e580677f8265348457368273a6181e5d7490336b73c3d62093da713f5239a1eb366934d64a55ca083;
  Dbl 0x2ff97b554b681dbe55f043ae4c94e7f96004774369620d736f6f3d3f22b8460 0x3978e59a40a4d0d9163a1aa2fa96ac029d17115bdc043b229ce5d872ddddf38 0x187bf41c4839b85b78eea733db00370ef05d931b882dde99fdedee4fa5803112082fdd9b050f5f65687a08cf2289a4f60caeeb35c8434a491a2e38e6fd6cc0 (-0x1d54d88e9d490a13112262c7853ca5f7b38c2d3a3986fab3259b2ad84c3d7bff7ab3571d63ffa30c23d8469b01bccfacacec3025cccee8ef907d01c7fd5060);
  Dbl 0x3fe1bb339acc507feee30dc8ebd2aa067d9e8143611a0413a5ad6e1e40f2a5f 0x7a72af2b2e15c04f3c86b79a250e690699054ddf7f5ab2540947fd9aa7f8fb7 0xf9e9d0d0052f98fe7d44d2ca35617eb722ed87c41801d2bd1dee8fc8ca60dd92627cddde8de23267b54ae64aecbf44d2297bf90c6ee843a1458dc86794c0 (-0x1df08194ac5aa6c54f0ecc7d7044aab488851a7e2ce638ca86c10e40566b144a29de4a86a87b0ad86c111ac1463297c04658965c3d19cbb421af1ec08029a);
  Dbl 0x872543c9596252fda06d776d135860bf32356605ecd37d0ccdbfb3aea9a3991 0x61301b042d210baac48ec9b2ec7ce90b5fafa4de289ba194bf769ec8e6595e2 0x1680e97cc2931b8f1f30e0f71ca6d3ffab67a50a60edbe06bc84f9bd185e89c0b7c32dc4577044cfe80c14a50f9fb894d88553ecc500ad8aa2fbb2a44d07f6 (-0x102edfaddf015f190dc9e42e7130f7abb07ffa50c3e643049643debadf97f3152ffb360c140d5db1eb0a1c765721f2d8d934021c3cadfb3ea98eefde330566);
  Dbl 0x8b4a19548f8ca598a875249c76daa163ba3e320968b79a396ea08e90f570dd 0xbab64fb533e8faf036008500ca20c7f39c3a446badbe4a306f2c0f48d927b7d (-0x12be5279989e96e9084aa338ef855addc86c30f91d6d78ad0ec649c2bc430db0589ffd745326f6fbc5c8cc6eccc8b169900b3c69e213cfdf434bebd05ac21) 0x191ff76ae550fa57ed7c7d1fe9348bbfbc1c6671aa71b0d4364ca3f8dc3a6a012703b26f009920ff598ccab9b0bd030cbdfe1582d369f97cbc9deb9f4fe336;
  Dbl 0x545f3438f053d98d59f5b0402d466e90643acfcbd186c97741f54773fd8398 0x9ee1178feb7ae66887d73f6cb050d0d27a8737d50536fbff981d747e1f0a19d 0x2cc8924d12a84007651a5088f6eb431cdc64a46b8116420c6b1ccd31dabfca49b1a6bba72500f0c28c15677c83ae891e45eb13103ef86abeb39d94aab0726 (-0x5454bd1c0c823c944eff66338210bf85f7734b1699485a306fd478492029ae135ff1f4184292c895e424bed0d102814461f0ffc7a3cf11e4d1ace6f4028638);
  Dbl 0xef8d0bffa4d322f417efcb60c029f16ba8e458f5e3bb66a3919a829b71bf710 0x94024e7cf3014813fe51683c02b0158e3500dc4b1d55cdfc79d658b54032b89 0x5c2aa90272b9d47e24e56ac9494b041fe39a7699e0376794dbfec838b233a87facb03b08a273f1720ac9e33e10dc5d18f8fdf8e10bad09dafc0e3186d5cfa0 (-0x38f233a93a87d182a4efb0ba653608e6421b7028631434b42c8442de3ddfa86b97a6453e14be11131671ffdb61c5eb1d5e476fbdcea3b328fb761a77c2e168);
  Dbl 0xc364602d776dcff7b04b57f42b9dac602b5e268baa534ecf55249435d98d7e5 0xe4b82772da2ac9f0ba09b66983ea78cb65b11e895abd0248debc539fab18cd0 (-0x69c69828748b01ee71dc676121e9658d57a731d3d38c33e168933df34506cf0a8e2e1ad5ebaccf5f483b92e4199dcf2699721c0e16535a09155336f1bb20f7) 0x7bd14894b77eeda7e59239b29343d67dad2ebd778a8440500a883088735d78e4aff0658863f014d90600ba45e6976d32c345886adbb984dac37aa1d23ef79b;
  Dbl 0x2159549bcff288078e6f466c83859df3bb65097a020eaeb751e3c62409bfe37 0x318c60f29a843a33a1ab882ef2c2625b53be130ac5531771c25a1fa0be10b1d 0x73149c3f48788a97933e37873f207fd702b33b7ac3d18ad14fdaa2dabb3e3a984369ad4e295487b51e45d044f94fdae154ff8792857002e1dc951622fa325 (-0xaafb3d51a6d0e4d4bbfd55c75b2e2c685ddddf6ef738d13641e59fb38736888ab9020ba10d04ffeeb64feb1e0d6dbab6d53f3fa0947d7f65243bbd7f69bf2);
  Dbl 0x7308d4d3daf6a81622ea31974d32a6d78dfbf666e558ca5699f0b3d3335ae78 0xfaf3808c4176e5c6fb2cddbb5e2854d98c2a52071039b994ef57ce23ef042f4 0x25b6e589ea11d041f6c22f492195163a331cff0d0599b90353108b78ec6f2ce910005e2696e64717f9ea0d310fc12c12cd82b131b69d947ce564225adffb2 (-0x524671c33810de01a2e94ee006835cf512c26172a2218613c1446944a16bd8a255356e24110a613b99d6468b140e7ddfa97b25fadb00c6ab4f71faf4bb99a);
  Dbl 0x3d666ce88f3e67b3d954679b312d62431ad42fd5885e9379243b62f8ab54d9 0x1400ced0c1e3b4017ca44f2d58b0a0d7f93e047e486f4a97c444e1743e76fce 0x2e9ab37a59116dbe586223688496442f730aa74cf73c1e937a040d8b3a37804d9088b8a6bb6f227e4e61d3de992bc494565e03964731ad6a5a90b2f5e6950 (-0xf2ed429d2f723cc7dd549c20ab7ea037c19339bcfb86b9ef0304cd1871220907e7de8562c0f7f05a29ef43d4cfdec8464ad3e1c84052850bda30c4677dd64);
  Dbl 0xbdfc819fa95342d137ccd1241d2f86a6ec9040ce44ff48029de3b27e53f30eb 0xbe79cc336edca795d35c9ac3d935fc6ab206712c4b47a5b2214c2c02fff9ace 0x11e04b3257686ade23a033763b1bc3f05a27379df234ceba3c3cc1bff919f787a4231b79e5c24b13cfdc1ca3b4d6eec49f10b2a1ed00245cc69dd034f5aa9 (-0x11ec15264abda3a45399e20f7e96ea9a5c31a4194d3c36ee27baf7fe5c62f57a8d4df60634ff7135a30957e8c5582390dee30c3562e6839975824f80bfb0f);
  Dbl 0xc659bb0fc60622f1164c54fdde0a61274fbc922de7c9ca412c54642de1f82d5 0xff288a1fa8db919c2b05560a9c49f6c385066f796c23447c02ebdfdb478dafd 0x9045f3504e162df715af7e722be7fcec90b11e43df7d57446dfc3a203b34db2e536cfd2a4a5796021e4dc4c189215832c716171d21ee5a8480d17441ca5f (-0xb997e1e5ae49eac14479e433d913cd93bb86c587f5cb7a5c6318e91ce9da37bf9bf48abfe53b50c8dac4a47941e361cdd176a05f994992edc6e291dfe7aa);
  Dbl 0x2ad493a410634cccfb918f205d4f83ce0b54ec8e65356654750d9c6afe9b1be 0xaf315482a583a42c396e2b8b8b6a35c149914ddb3613ad2151336e181971711 0x10d649216a139a52ee3089dd324341af0322a840ce0566f812dbd775bedbce9a590a04b45716b03e4fd600e5b61472ab1ee6476fe5e5d5c5d6fcfaba2ae316 (-0x44deb950c462d498d8c5966d65e3b6c53878894888cc8e6dc2f27609b8b0ff3b1566ce36538936df2e52b0f205832c57ff2cfd8e0fce1578d499e2ee7d78b0);
  Dbl 0xfccc764b8a95f67197ff4b5534ef411746f99309d4c31d3a03b9895413658b5 0x513b533984271755357b7341b684852295ab778af62b5595a511f798f5fc05f 0x6f512a4419a12fb1c8e8a9c091ced4c901085fca48cbf82a11f45c9abcd230c49545088ea3165b07be2d42eb76fcc126dd1fbf31338c61c1f2bbe7e3eb19b9 (-0x23c4fcb6bbcd647f90f9eeb2d728a719c147af8c03a14eb1fc9d2266e1ed26b426dd1ef36fa07297a595f5450a3cb48f22217e4a89c72824c770ade3545b92);
  Dbl 0x21e072dd01755dce623827ec2360e6e08429f63247d0ab5757a315289b5c96c 0x543c2a211ca1f495628d3bd46c95710ccc378f88b83914151dc6675dbff33c (-0x1d9fb47f861980ad4346eb01f10e380510bd825859cbf7431a1f2f4832ecccdf6396801cee978579d8d30bbd8422e32e784ee855f7f5e5fcd8930c3b70490e) 0x49a8fd074642d084fd81d0bb2e47802dd27c27badcc2cd495ce4caaf8a2e9903da3ca6347f795b502cb610e75fe380112c4725bfae1a48f2134065675c016;
  Dbl 0x584cbbe19417be8fff9755cf891b35700f6a653a185910bb73a58488b73d9d2 0xbee29f6c35331108d95607ce0ec4c0892a335d12d6195eb8d69dff81f363a88 (-0x182486b6849bc48b2b389370c230c867e588cf0879e554182243c408eee417d7358be24f1f2c26159e092fe22fc47f09e96c97edf2214164a6cb8c9efdc20) 0x3430fb65763cdb1d1597b90ac2608e303552e62f23e9e28dd5e142d3bb82b6308a037b0c6076105d7b398de6e47d92cce361687d362df306ab2c37973fd30;
  Dbl 0xb075a3728542fd63aac82ff0eee58d064aa712ab299eb74e31154fb09e2e0a9 0x40dfbeeb1c0f4aaa656a7c7fe353ce260c0f29b8a078452094f2a3719ed75dc 0x4d1da374ccbca96b80750290d1bbd697f0eb04633f75973d1d460c7fabe58b767e93aaab8d0fb6eae0cb20c970992994b98a61a2e47cd34fbad54fdfe507ac (-0x1c59dd1f319175b8e49ffead0b764ea8adf100d7b1e5116e4cc3dec1907e3ca36c4a0ebedd969a816f49427255ef6fe4de58fec68015285d8dabccb394d74c);
  Dbl 0xabf98a0a313ac97292742891ce44f663fa2fbe9fc7686900e7b51716e3e112 0x8b654bce227a58896da60f5a07a1b3979ea838052dc19021b6c6ee3bc59712d (-0x46aa7caa3b118a21a73e9176ab4009b4417b191416ce7216edc09c37f5b0f3b84769421414808bedab773e5bf37c54e5fd9f265a3ddef00ba2a5cf50f8772) 0x3947681a19ae66f7d6ce478dbb63755664a483d6804bcc02c2670dc217b4672b59b060b10836250693f89c329cc02cd2ba6147b1baba231623317b8184743e;
  Dbl 0xa44237cdcce459ee259e4025997992d139472fb4f400c34cfb27bfcb2a4d05f 0x69d30dcf616ea521c9993a2c16bfb37284b0a1ceb1971702170f15cb25a06a7 0x306997738b1c6590aa87d27cd18711b0a3b2eb4eb9cd2c2c14654f694a361b3deeed8db84e3aaec80a892eb638c5400b1c8f387edb6a2c54f2c6baf1bf11a3 (-0x1f30a1716a144a955261c11db69f5845f118a16c471e52d171c0e9321d08bb82fdf627c21981d0f703c75f27b2c99444cdbc7542abbbc36807d97dbc96994a);
  Dbl 0x134577f899df4a6e1be9fef055543d6558a75ffe9998ed7af4544d43229452 0x634787ece2acff346c3d2dae8a643e2b1d636f9d4466cd9b48c64795dfa1914 (-0x4a40e89951f095d003cdc4122f189c1793180e9ef6ce55b8aaf7b15681b7d5d7b38c85716f2ac558609fc32902b75c99884b1b28d20aa30f41c19107759a) 0x17e8759548821157767751a8158d09db7a8c5dd156d69a7f74aaac7ddd23407eaaaa812ff0407076ddd4cc2b7afb30d239a41fc6806c865d1eab22bfea024e;
  Dbl 0x3ee28cd2eb9ab9b91fb38a9107d00c8e2fcdbb353dc64479e52343aa78d212e 0x5ab0c385ebac2c6b2552f677f02afcdecd7339b3311c5902f61cf92f30f26d1 0x974d047a8b5099dbb80eafa0775206cd2c89e2677f899e7eebad872786347d16011e4c156c4d719fd63a072ddb94256531697be1b227c280ec102d2c1bb38 (-0xda3365e3ae67b984624d855349d89867704b3621c7aaf036b3959d88e3796e438d05f2f7fd4cf95636e055696f4aa6cd63c9a395dc1c8f703ecf15a2d3c76);
  Dbl 0xc6eb66f4f0d0fcd4956e18521959b0d52f406df198d1fbe0471bb874e757e42 0xf2470f92e789f4f26d842d7a509a0948b6d047776120e768a06c876190fc012 0xcf61b416721cc9c3737c60019a41752794acd8648693684a3a62dd72774afea7659fd85d43ac59f5749d96757a41aef09696c9a87f2e33fc842cd42930096 (-0xfc958bc118621bf1eb51ac175f7b09809ae458f4f7b4c9f718dbc22832ed00ba4aedea17ace6e47023372890fe67ee086e515760cd2532230365e0bd2a717);
  Dbl 0xd48a99a5936201693c22ea983a0dd915c756c04ec40f752229f87a42c916382 0xda37a3fdeed8a0eec3c99ca0120e1a0ff80faabcd52d6a37870611b24bb05ce 0x3e0a06c2fa0808fdb3f41695f6030d82549c533b4259a800a0980cf24921c87f82b2b0b255cc6d161e13ee7be70de72b6e155b366286f08e76da0622c4d518 (-0x3fb22850e8afff11f2c32244922cdb2b3e5f46b5541841dd1e7b800563fb765fb4056883749974a7a208e49d3e61a8e05a79c9cc9b080a900fba9d6db31d5c);
  Dbl 0x8491eb55934c626bf79872479cc852ce6e3a183e2bb8314b3b113ca510a27c4 0xf3e1fe63c7b5892b29b17f725f9030d0e2a27d39cf3d1a78b6383fc3a132d07 0x4f220666970be9bb65e0f22484786545f0ab66d2df1e57fc16c163d4514c4f907e9df84e5cb9c1c43ce967c5050ef7dbab2f39e12f2a8f502726bbe81d3e8 (-0x9193bc5699456406d8d16aa1195154133888869c1260fe020e0de62a267cabd8b4752e47480b8015d3f5eeac5fa6e5d9ee1ffa11765558e1c28556b5094a2);
  Dbl 0xf0b2368f726c0807309cc8df2ad617a586aab2e9c0978741a41011a344a7ed5 0x6613e3a4be2c550b2c223f04fefd349bcac4b77d3b41477c7c476bc14802935 0x99e6f5b12d0245bf00932bf74d60d018056af9aaba31194ed25c9113e8bfe32c29305875173b6ca2332057e05a50dbb51cafa2b088476e3bfb7bcc67922211 (-0x4144d8a65377f8944d7cf90b137ef3e254ea4fac398e141abb047cc13a2b3048d68a3c45cd49ababa368bc36cc7a133ab1badaffdb6a6c6541a38c8c0c52dc);
  Dbl 0xe4a0632551e79b43e51893f481cc4fa25dbc666264b1a108869c4d021ea90bd 0xe0a1ad615f451a7a891e09ff80e08630f5660e4638f1d5bdfb299fd9ad69985 (-0xa5c22238f8c9144ed326454821802222fc09f3f7145fde9f87d82462bd011c0139e373ddb8befbaa2e13aca09fbffc5f29f36902c607a442da5e141c1ab0fa) 0xa2dca6885fba3bf901728a7e31a6e8346946c632ffe0b83c91d852cbb19780cc82363040a47a9724135f175a1e1d7bf812793a75ddf3a63dad10ea8d537f78;
  Dbl 0x5de2274a6ef94bcbc9cfa65ab5477f8f22be47a91229749fec3b39b9a47ec86 0xfb9a209b35cd587272b73d1dceea2cd6dbb2593e62762450f5517bf0440cf34 (-0x2980f3a90daa69b6e3186049fb18f6a2c1fcc510cb411a347baa29dfdaa3aac110abd9d49fa1b68639def885d7be925aee8d15b27ebede1f4c69befdf78ca) 0x6f3a400aa0192aa3252682c60bcabc18d831bc5d12525d88c1e13087611ef725237d0ccac2663dcd0ddd07547a2d20c2ab00f1e18662f420f0ba50f36afde;
  Dbl 0x8cffef9d1c1649ae7c4153f5b6862f74872e18ecf1a1a898e447399a8602db3 0xf3fbafea1cf5bd68236d7d0c88255659cff859e22b66e82555617d9ce95e863 0x753bbe186f0333c79728bfa8a742eabad4e7d71365bae8f286829447b6d6a4742e0a324c59a224075d6479bb899cd4847aa4bc8b09c677fb7862714e24aae4 (-0xcadbb8652a76a80b6a441ebb7d8e48391e3bcd52d26db4a6b6f376abd06876d3ad881cc1cbeacc1c3651b44cee4710fc52db681470ecd9fce5c62921069a3a);
  Dbl 0x474fd840a0edf9e1c1360eb2f5f66eee161c0ce4f6c1c0a984a559f5a27e7a3 0xe716d72da4e9fb1e92031db7cf4d8c43a29e14f588685635a8b0866a534cbfa 0x2b241be7e84d9842aa7f8ac7f22b8952a80f8bd685e85e357c6f5706083af2d0744035025d9762540953c18109c1f7dc34960958c34f5ba4b6406665adfee6 (-0x8bcce78cc37094d158a068d142ef3869f4ffdf631f25b9496873df8fd6084a45e02c41c93b99b30816f474c6e8664970f52f2fb12a0ee6466f9d2e06ec25f6);
  Dbl 0xcbab3d7ec7ad05d8283ca4ed598ae8337f49d5d9122674bc72de52fc92a99e4 0x55b3a41c13a4724d76c1dc64ddb745959fca64f0c560d94bc2a0bd526e4d240 0x9627fe5f53c6b72dc0aba78b0e68cf60db45cf3536afbe68eccd01c2d88bf6833e950744c5107f7653f6bbab831e3ee995cbdb28a5b58ad7e6ace98d68e870 (-0x3f2f2496dfa42a31a4033152d07b09460a29350dcd7463abf92de393bead6aab9a931c992521bbaf1efdddb5fc6a2e4704142dcc5b6c126b4877ca4b619741);
  Dbl 0xc9fcd6978be11a4df1658eb6efa5212db9af1a7f9ccb546c07fc352e2b38663 0xe1b8f6cbccd7ffe0bebfe389d052f1a212298430c717dd0bfc9625228f5188b (-0x6935fa8ea1023c8dcefcbd64026d1dc8c9a63a158662aa0542c67884698a742753f57cd5f48dc6416f4a6757a34c28ba05e31ed2f625ce0b0be85d3283cff0) 0x7592e59d7b747e51092fa0004c49b5651e6584ec0f6376558ade436e158f3f6da18cd347005daba436cc6db32b3e3a877f9e5008e9f5effa751c8dd3240bce;
  Dbl 0x723bcd5ee9057047c46a01e4da8bc01be66b813d3dd2b795e808c184af68614 0x7ce49251c7ba866d7fbfe204704dbc5cf8d774e35422b8703b637578170808f 0x11b1ead28d7cced82712aee7b428440d15da752eeaede1c54fe790767fa24fa816b2e5453cef4a2c0b61f340aad27ae406180802ca5f4b130498debfc04d76 (-0x13589bc8579b4f250ba83f8bc3f993eadc354066e7b1fe641d38f1325054b7ce8616c85f3e47fa2c2fcd52432304934dc27bbb5327d98562c3405679e051c4);
  Dbl 0x92639b5a62d3410717dbcd3b7c495f3fcb3872defc29674f0c65102b5d2c9f6 0xa1911c06d08e576e57f72077bcfd3c63ee7c20fa0f600efef883edc2130ef3d 0x5b18c9babb6492968c5cc980135e7c01bfb3fa952dc113bbe754ad84516bf679801b45b46aa6ae7b7cbc016c000e7c6c761fd205bedf095e7dd73465e1eb6 (-0x648ab5009fae79742298f32d5fca9e1d0d5b62f81835c9fd2c07eef926a95e2f8c59b39d1a7401328d804ac88994b33fac771de863b15d3b1f9ff018f87d4);
  Dbl 0xdc094ee5b7f9868c14c9a019ee618d48cd5a59e8cfa3bb0f64ac39e552e837a 0x4f68686477e01ad8877948b1ac75bab9339ced800abd9810487566dad9152a0 0xfb172c020b72eb9b3e9e469dcc72a3ffda60fbfe0e29399ec82320a8ddf3fb6c7e4d3fd7ea7c809c3df8fda43637ba31c7945eca536c34db4db5884e83a3e (-0x5a9d6525fb1d168bd8de4b7083aa63268dcf331d296f7fa5077cc004608d8dbf09a029c062be9e5b43e45df5097f6550d087f08badd59b7d7c9cac83edc61);
  Dbl 0xb8dcce1d9e2c8fcdb7204c90c76fd16f68d30c6a92a9152dbf4b62fad136c6a 0x58ad3eee1bb9802da08a673a3ce89d8efd0281a87a9f698fc9ce5439816422 (-0x76c8b99ae22727e0fd6af31a60607ebf40810183b7a6708e2a03dec213c42ca6e747fa68a7768e1761d611432314ed71fa593fcfc3c30b1b27be6d0c7ea408) 0x38fac48bcb07e50c643515cd0f9d85a402007bd5eecf0f2e7296f1f5949e411e6e3bfe62c84f2ec8250f7afde54b1f8548f8384a50f4edc37a611392b9588;
  Dbl 0x30dd2530eddfe78c16819bcc926c561079c9423d930ccb7acccca2a469e0de5 0xaa0708026844249e3dde09ffd650695d8b7ae7f2cafa251fd876169aae2745e (-0x19751b9bb1aca3ebe22af1097c19d02a46a8f1e6f6355b46497becfac6a59cf660d340e9407bc0911fc256be654244e7d172bd3d7e6065a3a47ef37490d828) 0x5895099c25109d43b7436e3ccb73380d27d2f124e734a512739514bc58c1fecc6cf0fdf2cb00e84cca4e047fedb4f0109c6c2988eafae655ad4edb0fd41964;
  Dbl 0x3059d44a44384d017099d2c0772d203750e9c4aa04e965909c8c17d3841ab62 0x5c63a1af7132ca1e830647e334a627d8f8cdd14d4b4e6d52d5c86b9ef32b07c 0x13912a2e0db9744fcaae3a4fbfc94b685b2c19f211a0a58b7e443cd0f81f6a9ec39351c4775cbdde65d7d417f83c6a666db4e18a0a0aac06a5dad229130032 (-0x25638ae5538fa9140d4bb5c3c67f3b3fb11c06dd77972f70f01c10c0adf1be688ae38219fcff304f92da3a0ff5bb9486a691a405db8b73a50c40f5f229befd);
  AddD false 0x0 0x1 0x77237e426ef7746a140f727e3044359143ce360515e275d12c26a88a1150d86 0x51baa9332a5ed5e085f23253fef068c72906793e7291ba035af0687ae889cdffd82315e922d5a9a78933d4b8f8b078e2fb0158f8d1c367b6be2674c41ec58c82e114f766bc09149b63f03079fbe3588b50edd7089f52306097a5e0356e02 (-0xb20bfd0212fd29e506eea59f8a614880b192db9f9de536cc877f49ee848c67e271c) (-0x8bd61e6d21942237aa1d8f9a61121c2979be3b13a588489aadaa0a89d3064fd0701)
].

Definition double_base : Z * Z := (0xc8d7fdc416cfbc1157885531097414f8af200cd19d3f516398e0b11963be14b, 0x9749eefb81dd61065204de4a9eb666b94e523aece6372829e98959f01c65f65).

Definition table_cert : list tentry := [
  TE 0xc41a9072bfd958529eef81f799be61280a6385d9840cd09aba0fbac732a4a48 0x9999999999999999999999999999999a61f62b8c82e2ae701a4a1dc9e2d18c2 0xec3152cefe6f89d276e67b1f9b68c1290918070a03d11a8067872405e8f9368 0x10a98ecc4397bfbeaddffa5ab4fd072e6535ccf191bc231e7a0445818bb9ba4270c24140165e85204173b95f32d985ba089d843c17818d3b2dce53addd3d7ed891fd704fc75b31841dbbe554efe31798627a18b259988bdaac313ab8cabb6 (-0x2891f8b04df2df33d4e7dac71411ad7e58afa62ff7b1cc73bf795d4dce972a87486b) 0x79ca7b351999504fe906a4b6e9b18f5ab777cb94e065750c407a2682a70a51617d 0x0 0x0 0x75a989de731c01cb2c294dfaf5d8a0b19fd5504f4f3ae390093ca3445195fc5;
  TE 0x333a69d0df89f4300b74caa6e09b2423133bc623e6ab7a172e2e4376a3056b5 0x52d28740bad278414dbe63d6e481527e00b1163e97448ca2676efebc1f56580 0x13cead310190762d891984e064973ed844d796e02ba8b2e5199f0d9fe664085 0x368daf7639940d4f23fc87fd24a04f9285b03dd4f434ccad531bbf6e0109322d850ede44febf24ae50599136a9fddaa12abab84db1e4d5524b6668bd1c60fa83f09afcd2041bc2af5adb6ad19b6eba6fb401f387e0c39e755a3be7d379cb7 (-0x1cf35dc367bc8a2de18e7cb55cd0c401fea44fba34bbb6d5f1655fede8902984b47d) (-0x1cb141196137ed6de3354ccf45d388afb3b2ec72ef03bc0e59270f6b07f745480ada) 0x9ce79a2094bf663e910fed0b5040a03fe4a14a344f2bfa0ea7f3d081f4c6b3 0xfdac5c19cd3a0682c6b096f3c45bdf36e657cabb4eaee5cd4052f55318b6d4 0x29a1a72d6364ffba8ac88e07bac5b4a5462991e24ad332d1d60efad51312768;
  TE 0x96654d5dab7d6bcd7ec4f869e35f37e933c59a65a2b5102b9c3c3baf6de86f0 0x4cdadf5ebfc1cab5d6c51f267e17765d2509a28aa21ff55470bc5e0a6010308 0xd29de6206f580905a297ffeacbdfdf4fa8037cae24155195cc569da8162617b 0x7af2b49cf4271e79812b8f4fddc7f6d74e06286e7721964f4869caf3eaf8560924bdee675ee3a1c48976a587f1108641a39ae610af5bf5e9b7317121185568fd9f8e661dcb6d208602a3b189edccc32ec489d9535fb63452b91c3bfbd479 (-0x1a603d7b3c13d4bce7e436eb71214b1e4f777d5020027238fc53bde5ed255e2a5c35) (-0x31ed0ce79840f866f5e2c9b205411e1e8872abba10ad2cb33ee5fbb4baa4b9a75a3) 0x79a267542953652c4d6ae4846663ecd288894215166d08c7de8c061723bb653 0x3e284bcfaf39ec09b1a814635a6ee26fc207142b3eb4b1008915d64c05c794b 0x2f2cbfd8582d952de0321325920250ac3dbb2b5ff69d5a5eb9e5f73e11c0909;
  TE 0x5a90c9a7dc9e89aeac40ec0d46075e554e6d4fa8a68070dea9477edcb7c8f10 0xfb4f9286f37bb653a6c1e832323823da515118a47bae082177702c185a341c2 0x1a1876f6869fff64b74dbf6f6d3fe000133405a62d34a0830646fc3db7a1443 0x14ef1badd3dd3a9bccabe6db86e482ea1eceb6e399dd0632486907e0fd9512823da947c79af7b8db381373f761038c868dd0258b9de16329329384c03957f83a0d4f8febe96ed836a756ab1b5de56a936812529454dbe05ba498a0f302b91 (-0x131460ee1f9370318b1a72c0735ca00260a330750c939d981a4ca4e5f31bb3800298) (-0x1098c62a5265da416b3b4612ab437eaa7878aa1cc49dddd601424850b4ea4051e54e) 0x889754ade02e50a7e06d19ba108513a68c0b313c2f84f3bfca1005a57e4 0x17b070122d8aab20d46f2d6065b58ed45884353ac3b9f5c2b731a1aecce3 0xd51343fb2492345b4c57265282411a5f884624c73bf5ae0da3b6fc98cf0a4ee;
  TE 0xa0aa775c466e16c95a0b8be1b6446e6a209140d14f182f56dd8aa081c5cf43b 0xe394398bd9be986448423903c12104e5a838177bd3161cf0d04e493c5f786f7 0xba3e4194782685b774c59a8ca5c48df0cb53696f06447158cfbdfeb446f2311 0x29389988bf0de730b8fae8ceec650643b19f76c7722eb68a4a8050811f4c80c887fed5c4b84d1602ab5a8cc43b8b300d333157cc28faed4ed39100b4ac242fe96fe88021431319418d57b2fdc5ea2cbc5b8cc311d3c2a4dead8f94461412b (-0x2c45cd0d2683efa0c399b41aacf21ba792ba63708066774992220174ecc987089307) (-0x68135a2257acaffad033d70b825580d2b342b3e1e0bac0ceea65af2d496d6611b0f) 0x2a6a9b299fdf4e1fcd07ddf2b01b97e80d5200a12b7c88376fe90e90c60d31e 0x3c14ee24c9d8fafdf77236e0655b48d8bda50d02dbc02d7db150398b39adf77 0x81eac47259ee1e7dfb7e7489f7011e29e11ecdcb85e509af88c156059c6f0e4;
  TE 0xedd1cdd95982125b7dcb33f89d734c05d9405da8f6515ab23f75a45fe41a73b 0x22bdf23bb4c7235537f5d560cd006796e804862dce8e3223c9e2d4c975f9aab 0xf2e2f3c9b0ee90b7510fb147cb65e7610fc8cc6c60ebb79ae988ce0d9a63baa 0x4238c808ad2cc0f272a6e6ebf8b598eaa44a2f8b7618b0492436e855491eee1a4866199d89b52f9dc033cb353b98b84ee97e4bc05db1eed2b1193892be0d5fe052e8b048f8d325ea2b87d3197711e3fd7f3e0cb951cae8f02d59e91e1f785 (-0x3c1e4fb2f0c8346e25e100eed7913e5ad3dd0d8967f01656d60f2bbb3fe67bfb1675) (-0x1b69448b3d0574b8c129219036e6193c44eb810242629698cf7cd666a37da341c95d) 0xe4420a58b2ceaa4d096010c55c95653bf088d862e40268c37b3638f2cb5f77d 0x21585d115139327e05e9c3101b649ca77c9f26d75140136bd0c84b216f62c52 0x1c9a6954fb13e43640cfc07135067a71b04095d696dea5cff11a68665ac10c0;
  TE 0x33fe26fc3eb607473fce5330ea988a12d779a53e0d4f20f79bfdd0730719836 0xc919e3967f35d6ce22fa52aae1d44af6bd8003ca38c47a1b17ba50d1d37fb3a 0xe1e998048c29edee9cc045b5531046821cea6d0f54ef95e7d04f20899c8506c 0xef6c79f13baf556e358ccfbd0e32a79427182b8b7abaef1b70a6e34318a11c7d0789a179c0de2482d988fa3e79033c2b5eb7d846c8d40d0d3dabc5ef9a64aeec3e61e0f2be999b3d58a83d88c00e978bdf0f9569d69643a32995cae79a2f (-0x19bcc0b89354d555e91c629ebf9741da1220475ccd2a43404107b3ddccce0ff14582) (-0x39227c3651ae79459b583b687f429af77029a913a9999695c8156c42f5d292c01ee) 0x2780a25ee20887ccbbab1a4fec944c403c5d3c3c9b09fbb2e5e54015fa0d74d 0x98ca5120f2ef9f4e169498367bf762f5deb02231fe98cf6864586f6fae1ac22 0x61817d0abc73890fca23df703d0dc1201ec185e54ef7c71496e7d5daaaf6733;
  TE 0x5b99c184ece3a26847f3b05817c0175617fa187e40854ac02badb656783bba6 0xe326a0c2c21909f4a739bc06a0e0ba9181fe24c29ef732fc94b6c541b3eefa7 0xd45f759199344ac1e832b29eb0be7cedee441ff87cc2cf876e694b4c3fe616e 0x12efc704e17b58e9e53dc738501b3be338bc1667f06e195e14e70e5c4dcf7b5506dd577f27f9ae11ea06c7792d97c16635c46371d877248b7d1cb723f6df4b19848dc5d12a666cd4f5b13293ea57dce48dfe194e523da3510b5291ef2950e (-0x1fdb4f940783b9a9a5594893c5ff16eeaec1a639e5bc02e0b9e38bc8fd730d4c9f2e) 0x3781d4acaa8688e117407331e891c1cc45fedcae72b7c845005535ff06a9bfa0277 0x3bd45857367d0081206b36d8a9999f6cafd5986ec94c3740db4f67772a8b9e3 0x945d6c2098bddbaabc82c84f8710ad91ec19316c3a5f381b4f7afdcc8ad6797 0x42ab09c2298b94327f07cce48aae9cd9382379a5b6b6137c581b9dc9f948590;
  TE 0x84f4b741f05605015011ba326b591ce51358b5b4bdb8138e1c719530d7ac7c5 0x4b363e1bd4b02b6431f15c441e2cc75c5a2acf55771c02f5b14dbd3e88cde17 0x68e820996f6068a2588f759609f77b9a2eae7904928b4b151a011bd08cd0ee5 0x25af200479780ad40b7de7800161b3e36e8c7b9ce476c41fc6914c70d3212ab644d0c2ab4c980d898316daabd8210fa2f082588385efee36b9f12b950789c843371092afa94830612d4d1b8ef0df58eea9679ba931148af2d4ac8289410a5 (-0x228c1abe523619e60f6927d82c05b4496b36ff82d8140d4ed103dbcf088d8ebe26c6) (-0x151cbca83d4a56fe7a4de867f7d98001fa32711b6391335fed85e41a838c8426bdce) 0xd63515cb9aab6c74ab3289e456c8254caf5e563030c57d8d61a35143604882 0x792ccfb4b4dac787df95d056bac668ad30805618697dd77ffc07307df40a08 0xc4d58b4cc133079b0158eaf0a449b20ad5b1045beacf64dca04b727f600e5d;
  TE 0x3af03c073c8edb8a1fafa22c144acd421a1483952ad9b44f463ce9c64365e17 0x935c3c0fef2a4d81bb4b39474a3421213b553b5709349a0993e0f5564cdb6a0 0x5d51730ba658f35503d4f9388af4f678599386783d025064a8155b4d042f50f 0x121c61ee33294fae8f59aec66fb39e7c28520958cadb5322d8d1bb49befbe9e7ed31ca0b7e580f29076ff3e00e9e714e4600ca259e34372c8fdf48c86668fc5d4d715a758b68970848172775fe4c44dbae2a4789e4622b7350572ca38c2de (-0x1328a2fba087066301a5bcb436f4fa784f23617eba17f8e232b3ec4b4cdb2ff5b13b) (-0xb728d48dba41a0e64d34f24daa62ce05197c907e5796a52c6f3ee01fee9d2940fc2) 0x5e6d8f98a7a854b87afaed9e3299f35b245b549e67c5bfd5833039af285bf8 0xec17bf61ccbbf59583b7da52331f254196a2092d39b042ced58993f7a18d2c 0x2e2b0b4772c9a8fbf018bc883971ac8a2f4b29e87f09794c49015e060b99011;
  TE 0x81393f79626e5881566a52601f31cfd32159fa91370609a7846e2fbc3820c49 0xfdef293eb7055427c9647146b9582bb1e3846e1c6828dc0ad498539c0a8c34f 0xc0aeb01b3cd82a77ba5bd8cf2ced3f7b4a0c004d3eabdb70811964f7b23103b 0xfbad63c32f631056a563e3f95ebb989f7b26ff33a4276122511e424e77e859eadd17363cd3bbfbd167dc955213dba014600e5f80a98f32fd3aad4914b8b8cfc9cf4769c0e41d1be3f72266e25e53a3a82e7c0332083da8e979389d531f59 (-0x1dd5bcfb6625b234cebdcfb0b6cb91ebcb2436eaef0fced93c9f6f1a0c57ea7f0aea) 0x6f63aa956bdcce859312c215aa5894fcab5f07ce45a1cc18650f73b23d7b354ff02 0x7eeb8dff8122fac54ceac2e85e4c465922dca2aab107513884098dd7766073 0xf9685e7ed64255b3fe59930d58321ee4629934c6c92d13371024009b3ad5b8 0xd4e62bdcb4fec608401f93b63189d9fe7288dfc14b523ebd69325591fdaa15;
  TE 0xa0e2600e2aea832ac1fa4db362868613e429d82ca7671160c20be0f21b7bb50 0x2b70ddd31baed4766c7552801ffcd201703de8e8733ab9ffbf60ea3e7d25d9e 0x9a38bbef5265bd110c33e8a344fadb87a311c55fcccaaa947dfef7fb22babdd 0x3b6e2b75a34f96f2b26360bff55e45a7bd5288f015f6b92ceebe773ecefb3bb366923b6bc68f4786359fe501c8d6f332a37dad34ba9d824ef1280fb1df589833e56236491d589478c3fa617354251d6b21b3340f1ec5a258cb4b0f52c2654 (-0x2cde16e93375795a9b65ddf5f30785d6a5d531671d35087caa77874976db31a9ffda) (-0x1b2255fac37d8410c3cd353d3d7525b067af1e5de9bf6901c4dc343a351fc0175ee0) 0x483a093f926981bc9aff91a55b8f87f79097f6db1460d9a531d9c99ae8ff00f 0x13808df472b81a3ed803fd5812cca66ea54ce850537152c86dcb0861545d92c 0x1091814b4696d3711a7755aabe0eb755a3473c416789f01e79bcd85b07cc8c2;
  TE 0xb1b142be06b25abd98e990dbebe6204336f439cfed2fd287d5bcc75c6f1d88c 0x1f8088b38e4db32d2c8dae70942e2f60283f2d2f829d227115b1a2d12761cef 0xaf8760a63423bbb48070ed838c161bf3ab27f393468766ec0a31b1ba1bd7ef3 0xca864026f306314d442358b166470b9ec080a937ff6660b546169b5d932dce91976bed144f93c4ed4c3b9713f0b96ae8acf3b8d2dae22b591656686f459f055f4d6540817765b8fb4bd8cba19cc16b344c3d4e7c073077ee487e0dbd15c1 (-0x1e3b3c80abc2ba65e5653cd3004963761cfc6fc733eb69e4f6f694cb9ced1928f2b6) (-0xfb182f4be2a73e1c333b7601ef496f8efdebece7a6be95836b46187d872928c7d03) 0x2152d8111ca772f00b02a4eba25471e26be2bde525670eec18291ee18049ec1 0x5e86297e63dd4bd0f8e4055d97356cf9cffd2472ee84f5077242abdf3c1b34 0x1b63f901dd2e339009824c68d7f833619667c8683ceb65a30e9deb30e110cb8;
  TE 0xb942bba2d7bd7f6e41575db8ad8edab539cb85f08ec105c069c710b9a7f6cc1 0x184fa34d7027370ec7657404caff0d817f6ab8589ffee09196b21732757195b 0x3da85506979d772168736116762fe7e4f69a36ad46328128d1e17b2773a419b 0xa23559d45ca934682dc771f5fa3ba704e2b19912bca32934b355285a636a6faa62047755b87ae89d610d840df5535a5884965a99c8d767d5ea66576695f241871cb3dcb0f802da3cb40ec1e80c2448537ab5a8215cb76eb1498dd6e744b5 (-0x14ffd0a97a59c8e1d7fcf3d58401924f6113e363a207bbcb7ed9c69b53d4ea0623e8) (-0x125406c5452182ed26304698564b755302f9edad44d98b5dfab90fecddf0224b76ac) 0x1005012ce0572d2a9969a63b189d2f28ab9fdbf5fb30a95d6b654e5ed9bc8ca 0x21a28f19bda74c7cfada09b807bc020c06352a693d1d8c373b3c78bc6019c9 0x9aabc34f6ad792d631aac0cd6e499fd45dc421f127bc9adad4ade249be648a;
  TE 0x5ff1d922021a5be4da5870c03883cb778f235525b553af6d1cc2a62a29286cf 0x74a26ab0fbcfc79af5820e2dacc3073f148d9bdf8292776fc016ee4239e5f49 0xc7a0e142ce227d566e17255fe412bec09c33e002cab7eb67aa2ad79755ac11e 0x82833f2850fa3ef03616c270d14dd87731505a13eb1277c25f1b3e6b274c778336eea42de7cbfec4d02acf5f01d01025388b560e0559e7e7f6c12c633273a63c769f1a4ee8638a6ae0f3c7fca5b8edb87998be4ed1e9ce3c6ffff6a5cbab (-0x187ee12c977284b8ecdc2d13de550193611ea278ad22ed3ce53166980cf7f6dbe0d3) (-0x848391b9847b37822da75134fe432eb33b20d14c2ffb7e0fcaf012af8ee82c7ce15) 0x77d6b221f0badf25a3c89657fa44d3dcb26f8aa55cf5126d0a391521632b0b 0x91ae50768b2d20ff71dd58f8048a5190753a5a8114c1b77dabec68b9fb0305 0x434b60848ca01983dec246903b38e6edf54c0562bbccc1bbfbb2351d611b078;
  TE 0xc1ef07f0cbf58da313d5f663d49f5ff939415077dc6cb57d9a820f519df23bc 0x84188e72cc824cbd6afc28d559365c295e01c9cc2d4bae151a6159de0999220 0x252e63727d71d1948107d25d3d6cfcb6ee553fdfceb508b2289967fb0235f1a 0x144464fe8a4197140d6e0716e65c58da9954063e4a49c956190e9668c45e61f8011666c0e1da034b92203e2cee9798d55e784d19dc24100573c9ce4aa970f5e6bc7b955a1a6c17ffa27da92a41654cd71a05719a6098e67dc2bfdd68df143 (-0x153e4d23f937ae66ffad6385c4f68a328ebcf7c5f743854a379e3504c960d90fd58a) (-0xf0ec08e76dc6c2b0ecc7bd299e96038bae9a86c4d0afc5419c27af26f992233804a) 0x10cfc5f3f8b6f8e47db83fc336d97724cbe778b1a8047da2659b92285205760 0xb73785df759608e6def5c9c624f01a25c2198d090b2e1b42d32888c4aabd36 0x7831e3703ab91bc24ec5b1d935827388a334991185aa2b82bb3d007d936829e;
  TE 0x446c78b3e00f59e3c6981ed19ffb54fa4de25c06b3f47f64f336a16d6d0f3e 0xf3521ace68b84b791dd5545c490ce1862bd69e8eb30c56440f1933ef420cc2e 0xf0d4a022f764bdc912e18571d737f8aa4ccdb8a5fbea8588cefb7838db5f263 0x2e659394f127fe59d674f7952917af5f4695af23bfa9f6790f680b3ec991c90d931b09bfd4e64e94f1a5cc387269033ac13bebfb131b125dfd013989bdac862a24c212f971216931eadd3d80ecc5103b989bcb9ecf236bb0aa0517580d0f1 (-0x1ac5741b05a459589d0d192b40f1e8691c3b39e59c1cef7bdf6978b8ee0908ef6086) (-0x2884958db122453a16ad120e9b1371e26a22156025bf59cb500888c9d09789aefe) 0xb6891c0a659c4ee55572c7112b42245a7bd97d52f768474eb939c45c3f300 0x2891cccf80db18296a45765cad4ce6198b7cb888c99ed8d80b9bf2b6d5394fc 0xf12e2bc864df34e627fbcff0b42716b6ae89a524e3d3000510b1cb026683f79;
  TE 0x832d97d80bd68dfc9c3ba18db9b3864b07d84082e0eeddef0f4ea2e57aa11ca 0x648718fa7bfaad5f736663604fe8e2a7eadeab10004651ad7181f61ef9d0187 0xeb35411677d82faf17a3810b590cfad7e6b57546a5bd083e30e5b4888d3722c 0x1e272cae1ef9677a55981559722b1c1a513bb959ec2c5c474ac014ced47ef2bb8ea4db48794b671153cd9710044967280d0ad969c7c6134a042eb54cf3653d490452b4b1fbbfbe0f1946ac5d89f9ed43ddb67bf7472bfdd57f0d6dcbd850 (-0x25d04cc677dd20320332658a1aa94b5e3142e1a949faf2606d137c0e76f96ebb708e) (-0x6995cb943a4a4613d9c87e3774f698c7eef9164d9770054367a2086ec5ecd3009e5) 0x687a1ec4af2990bd5be3ec928becbc670d8a10500d03c6ea1d34fcaf5436c63 0x5010c3c325a4d71fa9c740f168d5fce9354c93f14e8e8ca2e3a951b3f3027eb 0x35d5019f1c35cc7e2c53d3b634ab22116762f1ebbb810d79bd3d940c764aeaf;
  TE 0x4d2bf148e539b3da926879a7a275ecb59ebf25c8c6fef1e3d36adfddd0a81e2 0xf1f3ecb713bd4e30a8c86f3f70d3be5bf6fa620cae7052f4069bf7a2cd0d7e4 0x808e2cb92e93831cf1a67c2939649602ef3c5f98e625af44cefddd8b89ea7ce 0x17e218b3005b22bf23066c172722e40c34cb9049c81f03e00003f5e2cf9771125ce2a78edd7c0e5e3ee3cfec8efb356b005a70afd54de49a503fe1326f6008ed65d77617d5401a6abbdf096434c0a7cdb20e530a085fc4bb7068ebcecb7ac (-0x17811e2fa50e5cd0ae587602e8b6c7f2114ed209b20ee6f680827998ea6298ad0229) (-0x4eac64130ff32d20090a0911d041af2134d6ae8fba56cb2d843f832bc21fecc4439) 0x271992b681256bcb6bf10d8e9fa3b72b1d9dc2725f64c7c3b3931595bb407ed 0x7a969154efed09fd1f23cf2b834ed9e21ce4b83cbcc40cb89a8ff34d137fa6c 0x7f8969a7485b63d526e835d83c4e71515f7825ae489a8a5dc3b8bb5b5ce5179;
  TE 0xb6e192498296f3bba9d074ae48a74b09e94bb9008d98c03058a134754a3293b 0x5507d6e6614e38aee08434675374d31738b82e6989d636267c9a5bcea06c0dc 0xdf5d357f82e8d7440b145577056ba0326172a75d1eeb14c097a9e168300bf4d 0x21d11f8c183b019dff5d6c7a26933a2825d796d533041f96646da854cdd35a436d5a86dbf431ade5cfa307881dd04be2d8ff49f69a2f58884821c9788719d92764da33422ffc8865fce46b89f488a167a120f6f5c5bb1a5e5acc1c83b0177 (-0x2f935c27653aa091fb9f3afc077f8b2de4e00c63469811548f60bdfd4f7e85de6df7) (-0xf942952208fd94501ae876ba5d16d3597ac8917d0f00785c309e160630952b6c536) 0x65f542de89fca665dac64182538fb058f54ac8dabb5bd827b33ada3d3b7a990 0x2f67c969085d8c8ac56073a8aa5d1a6e5bddb287bbff0ce09e29c80450f9647 0x124fe6f21220a4be91d9be1b3a870b82612704e13c1e86201ff3eac5356bc18;
  TE 0xd1ae2e01d663babcf2a895ab07e2f03d9cc6142c63c2bbb4f6a6aec4a0b812a 0x60f28ed2cbc8fede0d33526219a98593430ad165daf949118187107abf9102b 0xea4cd0c93ca48f66f745bc0335cbe81197c3ffdd8f8e09644a2e642d2888219 0x1c29e6fdd9fc1362ad61be9115884d98398c6f4662d044821cbccbc1e952ebad4956eb34d5dab0478f0e12a6620c0e0ac7b137afbb936fce9a2a290be467fbb6ce60603f0713ae4ee420e873aee6ad4917554e9d9d96cbb951465e894f1ff (-0x2c2ab42461ebf57c0fe7788e33f63f7c96a47196b0a073d2b2929bfaf69eda85c69d) (-0xca59ab04c245e3153d2e44fc4dff7c309fb125ca2aee25c96efa5f7af95013844da) 0x6983645dfd170e1b846097ae69c450f176db9a62f20fcce7f42f9fb0aa38be9 0x30c8f1bf39c159558f1ab94750cdd3274193857145db95ffc7b691f512bbac6 0x411e2954676b413f25130a55eba422c0fa07659d59cafe34114bd565d6d4652;
  TE 0xa4b1071de5964c0d6e12b879991f4eec99f6c25f458989653f623ae70f70018 0x552139131c44a7206fdb9b8f43effd68a01a4f21fa8d8419a44e1a7700d303d 0xceaacb6b891b7dc4496379ec7769b3aa2d47b47272c9ecb672431b09d32d73e 0x24d0f5a65e9c5f72e6307386e088b7775cf3bc11166545608b0733b94bf582cec0a40e38d0dedd4b3f4e981b4c2c4b77a5d04232b0de188a155769c09b5d9170d41363ba1729fdca9860bd7da8f1868f232279218c1038a3f00155a82bc94 (-0x28199677ddc645a523d84a29d69862d4d2dbe039a64f33935766db9f1cf9a2035b27) (-0x126fe2ad5517edf64ef01c95d70cbe53f2d4fbc85e2c03f99df84b8f5925a00bc798) 0x1d0adc24f086c54bf6e66604d2bad9f4453e0db0c617ce9b420724ee22df977 0xf031cb90670485bf67474729aa9a5e38ed050bf059323940d4a61cd362d305 0x3df279f4fb587e93a9969772bd9ad8dd1d19247ed16d211b4c1dabe2453ed6;
  TE 0x2c1cf73f0e549f7b43d6502d6ad1030e35722105d5451ce4ec5ebb04fae8a61 0xbcae88f7bee421c8403caa91e93ed9f0c434f097e721b4fec319e24e9df819b 0xac7edbb8505ebbf60148b435b89c2f02dff7780813c84905d04ba39d18b5e37 0x19645dc00cce5fd90a05c56221afe24aa5e4602dd440cbebafeec9ef4fc5139583f88e176d81d3973e86284d1e06c673138c1b9c0736e52313c212dc1e4fb0602d2e6cb6f4021d7f10f0a30a6d3a1d59371153fd4dfe1d1f518488fac2675 (-0x1758e7a870d5a371f86e21195701b8a1ed257751f233e564d80fb4b878e9947cc966) (-0x64f2cdc44442c93f4518b30dfc861b935874b796f09f9eda6d96b698b315ff5c0ee) 0xf11ca7945bd1dfe9d3d1041d986be540dd53409cd848633a9d06d9350a318d 0x4074a1f7cb2dab4922026f5d7720665578633bd1ac314eabaf16514d88d81d9 0x86f64ac6697171130bfedcd6f0191f7aa96b3b6ba44bbf8433011e55729fd47;
  TE 0x904f81c3f0d1c87035db95a8ffc69e9dc4615d5adc2c66dd639d77c6c921d0a 0x5071c66c96b6b85707f659af74ee5bb517f64dded7cc994cf3819786c576385 0xd652d092eb2fd931aa6d8dd23be1112eb32578055eb3ce580ff3f24428f62bd 0xf1312f3cdf9708267e2186449f268558c483e5494150ce72a5bcacb577479f4f5b73627011f245b4df2675440ff559c5e0abd3b3e987af7d20729c7533d81f80ba1fc991638d4e7517fee2ad073591db037fecb77bb88ac62a464d3233d0 (-0x23857b1a6f451a3d382cea7c7e64dc139a7af04be0428bb060ffbe1930435185d604) (-0x97cb66b058b07d0066d0e3ffcf8a207dad9ed10ac35d5fa911ac8bb191590c00dc1) 0x705f722f5c903d39e6741a8f433800b17a05668cc38bef70a30557b6971b404 0x3ea41d5c6b3bd2d9652164f822cfc15b63eb0f125c8708ad61cf2d1832b27bd 0xd2fa0b544ec1908b21183e5386e0dc49324112d02e9657644b22dd520e9b3c;
  TE 0xd9634c140e8def360e9861750a48a6f7cc8fb723b06544a76107482df69c6bc 0xc95dfef9c103904718c74cc641eefd06b8e326fcfe6cff1b01839122180d628 0x43ee77eea97471aa8144c01951a5acd5996638e22ff2850e33361ce9836681a 0x150670d48952dcfa5ad4441dc9c1b10ed7237cf9b381a5546d54b12aa80691c836d6ae1e4fe7cf38fb805e4da86cf830ab1660afeba30c54b2e1bf6ffed062d6298e4498b862e5d2fc2d8a8d981f5f5e2146dd9532ba66d3020226162b874 (-0x18d258492df71525a63a9b57f4acbfa54b3ef2e797e15ddbfb86daf197d984ce1ed9) (-0xced46e43c2b38ade9a540769c5950762aacc5149f2202f4da67ede3051b3ed20623) 0xc0c990376e1e80322ef08454a00571285c19671e91f05794150c6d558f9db47 0xb29461f0be237f12b672c714ad7516204710e7d204ea40ced4ca4ba512c7267 0x3d594e14a51785973231d3da982949eead59548dd07358f4afb3eb4838c980b;
  TE 0x9b653d119473fa734da0d0f3f307ce729812f4478f87beeafbb9dd9a0643c71 0xccb462938bb0bb234457720d8aceb2d6c016c41a6e0bb991d32e44fa2db907b 0x6e4953307f38884c42a9449cb9b4190048853b09004585c5a9e49f3fea8bd43 0x4f47efce49542ee51cce5ad08b6dbe264ddb3a85cbad3ed01564d5c99a23108985d8a2ba64cc181687126ab03e50d6d0b7204d190dcae2c1b4b3f6bb5128b494dc89a8aae9db97af0995ec158d0c32f5c3e5ddeefa31050eb30cf5a4e4631 (-0x2a90b7034909e8b86e3479f66d1bdca0d46e0d7fc1c40348553d1a791f431a6f312f) (-0x1840f4e92aa29217d0cdef49bd63b342e15e02b174c2ed91c33dc45d44e06eebf445) 0x4155d9c0fd0809fb602b8e6798d9151a61401bb4b8db26e63af533a1ae9be12 0x561132c0393be594459395e6f601e82eaf01f9ae99a7dbb0643237a02745f48 0x997efb76c9e5f10fb29061cd7edebc4b1688053460299558909b98eb9931c89;
  TE 0xd2cf2a6baf46080660563e79d47853994582509d729df8ea952f64a24fdf2b2 0xefc3eb463728e38de3e7785b3fbf7a4c19d1922d0dbef746b5bfc61d3d0b0cd 0xb43c44aae6f77e368730b619290537e1a1165d3002f8dd0658a2d8bd424495f 0x399c9c40d22a921edd6ef15ffefc5d3e89ec28fb96ba14eecce5ff47275fd3d9ba2532d3f0650d1851a146fd1be9f312a003e13262745d2462bc93ad96690ba35d03268c8dcce33780038e9b186cc9cca279228eb8c1262899383a432ad96 (-0x3047f9c33c4d6f287b2ae09bcab9761ad520961b3b488db318eaa84dc98108b68fcc) (-0x8ec5db05254bafd4f1c6240758aaebd5dbcb5348d136ab0042c32d1a687646446f9) 0x24f12ee393949036652bd5b151186e54a6bfd829a8c4cc10c88f7271e299c48 0x2a0430dee1eab4b0bcf13551ff07d70518381a1766c8de6853247d2f10180ab 0x2f31fa297f309570b07dc6c1630cb6a65bdb320f6ddf956e58f33abf79c26f;
  TE 0x5b83d04779daec2a5195b0fe0cdab186903676aaab781e35b5ba095eed0c342 0x52e0b85f0ee8e80ff77b2a36a726b6a0423f2dbee0d2319b5a8e2943c2b3fd4 0xc63d2199c1469073478c0925a6a35252c0f0c6bc2cc9ba1d6795527139b1b52 0x5b8acaa08d3483b5ba37076a232116c9740848d93bd6283f35fb9a4d9f629c4c2fc9c9b9047956ccc5539a26947f6d337649e780ad5a647255ecd9b03d5a5c7e6b2f7551ea90ebbba2f41d040f4b7ae1063a7ed2d214721b958b595d699e4 (-0x2e329fbf2f403985b2640d60da8cfcd32839294621afbabc8ca090a9be220b2be52b) (-0x1d41d53691f8bbdaa3b4419237fd9b23cf9b229a9182d2c5b67b8ae8281e41329387) 0x51d3cdcaae39180e41763bbec24d347e257b6fc371a95754242ec04cab6edf7 0x4a1ac573b181ecd924d6f4849e5d1a2880bd4e88eb57c6f1b5421b82728dc6e 0x8f575f0bbec6086708ed76a9523b6e0d84def0bb09e84ec652dd4e3af7638e;
  TE 0xc9c3258ee9aced84e128c48bd7697865faa7426158a5bf7393b6c3696492e5b 0x6cd5119be992174ffa341f0dca310300ec404802d94e2e9ade193bfb6d67567 0x3bee65be2fe4869ac4a8fddd6c53f8050e8879b4d375220ff41a2e61e461230 0xdbc8973c711bb51c88dd544d10222c0e2278663091d5f603a6792836f996e59ca6fe4006e59a4f2b893939ff6f5502caa99e7cf07d8b22d5a04f0cf6148e294b88bdb39567334ef0904dd8e810deb0006e9048bb8468e51877a9151a8f88 (-0x1408e48e1100b91e5781c9178f883b66681d6e14d2df718e0cd78d2e6348204645ff) (-0xb7a704a03cf4d53a76dc362310c294caed28eaf0d6bd3647cb6194c7eac13e2d2a7) 0xb6c44dd9ab98c06105d4a16ba5f6c5920f247b428f3a66929d0aaafe8a2e575 0x629602918be7506e796946975ab412d86a5eeb18083e679541ee430b936f0b4 0x4c5b3a2df7d86c46f3a1d183eec4b79158df5e6a6420cbfe5797f7380a5b60c;
  TE 0xdb6130e43cb7312fe7fd32b0f11a2d49e108e9821c5b8ab09f6fa006f0d455c 0x18427ed1f4afd89acd95b64f00bcf1e39e7818acf0fecda96bcc408c8c70ab4 0x974813e2f8197737bbb565548b75485bae701bb671518aa32f6d74f2d270b30 0x27c4d2d844ac337523272b6e56435fd3ba936ef709faebdfb4192e605fe413e96e06d8a9ee92e269ccfe2ff6a1b46fd495d8e4f66b0aaaf461ebeb99e4d3ead7a89b367f2ae2f6f6252fafe5fef2c1d57c45845a4851088ae6ed50f1c0db7 (-0x2842a412579f01bc24ad81845ed5f7fcc29efbc6db71a56343d89396437368f6efd8) (-0x1915ec69d693572df5a6516fc95bbf0a11894af75495b9328bd799b9b63a5ef84638) 0xcbdf937052e4b033e103fe41d4f5b320131573463eef1f39e8e57c8af812f54 0x168b859905e747d0459e2baf6ef67da47a43465d92dbe92e3737e0d7d68989a 0x3b0ce3cf8d2bfc1bf8e70590e14406d76d81034cf82a1b14f65e53f3f417b3;
  TE 0x4d12402fb25ca519471b872d49d2aef1d993e4dd600cafcc231b1c0474c4874 0x3f407be2a3f4e52379c99c21474b3762b883cc51b618f8f15935b2e654ab684 0x74b271da78f08137fb49f2a8d8b7a604ca51e280856a49bcdffbbe8d4321e54 0x9a38f5dbdd67a8d068d7efa6daeb56f8062e94469a1c52b9937231a9f8a1292a31ba8655825630f91afb91b96d85c62d3b57c79f3f5b509762d0dfc9c47706588f1d0b2a6327f2db64389d004d05e45e3dd12e0751391df7f277a2ab1bec (-0x1623b83261f758e34e56efcd898ff9cb08e3049461522eb90a10bbf7b12919ebcd44) (-0x12fc01301a485b15354106bc396e82109f22621d110bef8c98156eb47b8fee0a15a4) 0x840c6752705838aadc602ed9ff6a8034e52ffe8e0cd2ea997ae55009b1b20d 0x6c5f0be2b8b27aad444a9c664a00d8125d1713f876a03736be506d9f31b62b 0x1be9c805234d863bf6aa7a78de6f322e31e903f41e84d42b3a98d54e77585b9;
  TE 0x505b05e40544b4656e2a5ca47956cc99eca2a2be14ce8e8def387a484beac79 0xb2e607ed2ad1c7fdd324fa6830557bf9a2beac9368da85ca594bfd9c45677d9 0x32a913d72b1bf369ac5af25525d670b1b14725dd71d0c9643161f8ef79dc9e2 0x8d439097c17fdb4b207e703e7b02c889dc6c31fb05c78dcfed4e2c439665916b7dcecd31eef88891b8dbd7fd97de22936e5271a0d14ba9857c8f42c82f61c8bf0b7ff50c0ee5e38aa59f8ecc9d709ef266bbad1a927faac52302bd4b0f46 (-0xd60d68141096db21f93fa49d895d3e607f4a6d867b88d6af5f582594036aa69306b) (-0x78566e8090cd6e80c29f5189ff1c6fe99cd3b48f5df27f19b9f5f165ec454139dcb) 0x223feec9bde031279c31589c03b32ff52a243843de7872f6ea9c32a24416488 0x4c405fa9f1bb0494f032598d97a8b4192dbf737ee4f23447c387346864bdf6c 0x1092eced878a5aaee72adccedb5b4c4fb06b360e9e9d6256919cbc7fbb6d483;
  TE 0xadf5497c16cac4c122f9ce0bb04bee0801244bc0f8afa1febfa9837bfd776d4 0x6c5d8de6d47939ba4bcf26df9d08231a32ccae5a65dc180afb67d470f8f0a6c 0x85522ae4170a3de86787fded10347b1c892cecc412b839f8f5d5cfe0607c931 0x1a091e500b8840867cc8267d649b5799bcd100ca32c4947c86e738fbaa06457ca3682c9fbc98eed440b709c25e133118d14c11962c5f4a6e9e0410a40bfce5297d280d0d8324f667ace35c51faaa2684e04d9437d94f12064385dfc09a4ee (-0x21895c7dff13fb2a528390244d1150ea32e1ccfddb57b227511327ff548e858cbb6c) (-0xd87ab7a59a5c98f79f3449222213fba61c65dc4a6184538d37246b58557c3a3f9f4) 0x75a79bd33132e608f2d1da262e17246c647170efe106574a1fe1da3b7da21ba 0x494ab38467794c91d7970b2b2972c0e9cab4597bcf8e9c7a926c178a0689096 0x334f9362dcaf0727961227665e755b0f9d0169d475575ddd8007f5ecdcab170;
  TE 0x5b2e306996e77f7b19705c47786162d152dbea87d75ddb13acd4ff7dc62399c 0xb05ad597f953df51b9965cfaa7f62cc169b227cda5198c7434e8707de26f0ff 0x9071211054d4cccd59321988fb4b251d37591b7c1666e460c34be91524a2394 0x22242fd287e3305fe4b8ea672e7b0f1c1e65b02b89c2853d10f5144609e679ed71a6b8cced152f132a13af076c7a96a933e7ca6f3dd1b1113d6c6ae00b307c56aa292b080eb879e84e0ee70750c248df70c67dd1b2c005d63a0ad058adbec (-0x1cd1a4fbad151d5f1fe659a0baf19180b9f505f78822d185d531b69918fffcb310fc) (-0xc2abed62265f44cd323e499cbad954f6a013a641b0c89bcf41bb5c663e919ec87d5) 0x7e632b86f370bff5f00ef946225cb356253b32e4f82620a32fbe290d9c585e 0xf4731d0e0c2eed6f2bea52c4db74c03e80fcd97de0659baf3c1d9fa6945c63 0x84c6d9653732c370d145354466f04737a7a9c6cbc64c9297e3526a50241a6c4;
  TE 0xcef7c555e964f15b0246d1acbcd94bb9c57fb89b833ac500971f9430c0bdec8 0x6f37cd7190a90b35be75de8fc001c3e35a1153059f777bb0c97a70186c6c7e5 0xb0fb074b5f3f5255e5b1811eb5488858ceeb0d73a7b59b66da611b71dd56988 0x1d1f74118b066b7f6bf547bd3562ee36009707e5596dec41f6e914a34c202c209d734c0d4d75d1e7c24c0b221568bed3972b895418f03f691d770d115b320518b28d6f6599bc3b4449dcc1cd043bb220c40996ac227d9901504990c53c2c4 (-0x2863810b91c085d4adb6b791c6e3dcab34ce4758e303873dc8a58f801bd552b23e35) (-0xbe8864ef548c5396d8e265f794f9a4c06e8d85300f0897a4f6b18d401b45a001c42) 0x724087f9d973a4a04a4dba644192caca30089e484f8af9b79ed54c5ac79eee3 0x3d653c485e90a7d9dd2a37ac53bed0df287ece07dcceba9fbeb4a6284df1dd0 0x14aa38c716b8c6237c3aa6edb8bb8f640cea1d9b737c93107cf21de8768f89b;
  TE 0xc54e27058fb1d6fc0725c6ed80f7257a00a841243a5eb3773735a3b9b1afed0 0x2b9b0dc0dc3c03232771554d49c424d835b36d7f5778b1aef863e4500d90631 0x56ff6eef7e5bd6fd31b6d228ca006c7b6535f0f89ffd9efd54e96aefdb67ffe 0x29b06c180487626ac8039f713ffafee8d3edb2029cf47acf992a9b95912ae78e186fae4e189945d75e827c9cdd44310ee91bdcdc69daf874a855169a4aa2e0b710eabec7ed49fcbb5d276a170634cd7c1a25ce720f77789ba425a6e4f3d02 (-0x2151517b402a88af87cd1126637e00eb9d3c5baf2b4a2fb30eef14be19d7a716ffd3) (-0x19b0713d5c163186d43e5609c121f402547916100176cca117180dcdec3c676d3030) 0xa44d2559ea588a041c892871dc3a1595060b9e4754e08f41619901deedbc90a 0x244fc57bd7e86d74ca783570b44b22700987a2a88fa131fb595fdc33edfae32 0x23c434f4c789e32e3e7ee8d347da49b3c832472e3b82a10c0a2f11f42ce2e10;
  TE 0x19c111ac3dd3d789b8e9ac02f8f9941de50d82d5b682ef09fd8fcc89c130c0e 0x65214d7095c932a0dbbac9b8c89b2f66f58bd6fa5385e289bc9159abe6884c6 0x415b47d9280c5c4c3f6b294ac4f33664e4121119941f41f9e905c75c0649840 0xf9506a7dd17335bf7c3d46fb67121460c1d00fa5e90b54e3a0202b8100ffd5cc518b5897ab32a030926610bdcd30c4900cee8bb4b987b79501b418f59d7d317fd72b9b4dc7696297fa287d44ee534fdce7f426d14610c1d65ab95197ad30 (-0x12f4ebff665f1c53fd6fa571d3e980ad0c6944b986ab17b9bafe31ffa6c6b5ac1b09) (-0x12a37d7c6cff97f04bc451ca157a245bcb8b1086cceeb840653ac599c9a694529ae3) 0x120b4ca48596758501893fc978bb97fd5d764bbdbd0b0719bc381cb4fb808e5 0x46dacfd94eeb9557b137e7ca357c213cbb934640a1e84b395649d267865dd8f 0x45436a0f237b86c6c2c24a9a24d0fd411f6b48b65977334f797af49391c8702;
  TE 0x5bee2eb21e68985c415e26fb0fefd5d015b3a35578ba987624849096fa50770 0xc9f70511e4330e421ec6e49246f9ae280ab4eb860b629db6ad43fcb72970c3c 0x29a5d7b3692e5a392559304c93bac83eed2b635d401786ff23e593f08b69ce6 0x4b79282ebfefbd89aca2ce6c2fda43a29e8079e2d3978d07b82d732773a946f506cfdc6f3e326ce8621270e1cfeef07a06b702973942b9095c9f2cd1f5344c9042d40706d02657cce718344de604ac57db1d158d148e13b50b4c95b121fe (-0xd30dea902b922e7cd9cfb7c49c4f625a857d46f52bf799f631f41c198c9ed4c41b8) (-0x5acb626572bfdfb3d3c6bde844c2029e376ef9bb15c540a8855ea4c199bd3e3d0cc) 0x13e497c1a465200b01127dc65bf215079be9c6a650d521c80780ef61de1128c 0x2bb415af824b2e906b6d81883ea5f0771209c92f78d20e4e42221a1e45be87c 0xa1ddc520b8ff424ca0dbb4ee20b43423849244691d3faa8dacce1752c188ed6;
  TE 0x60df1fad68b54c917af6701ba70068bec2d37a9d2544ffacbd718c2f166c0d9 0x3754272b0471a5eb8dab57b72c95d57a2d3607d59261d26defd9512768094f3 0x91e377d14d47b56cec5487c8b948a0e21f3c8d7d37eaee8fc9f44fe770a7487 0x21a05b07105e00a2aee4aa187f531eab8a8289a118600fa7b055d839564fb3d08ee7b76b2ed2a2503731435d358afad553115f24278ee275be30adecfb931edaa9285c0cdab8b8a97ea701590220d5cd34212f85302fe2d2dc3f29fe7dafd (-0x2047103b9fdbf7a8a76e9936f910e8f32dbc4a54f468bbefac84d7e8f0eba5ce6ee7) (-0x1343e66af7c7590c2a4ff8f1553eab8ee14b1c89fe6a063d30da315a8fa22070e76d) 0x21740b67c69c9fda4e2fc9312441d21d26c52df6c748b8333884f7b7e437699 0x131b666f96e8f08e2f22c4585f52b08cd337aeece1df0e7c2f953097159844f 0x36d3f70dcb82b8840cbc9466587f7424f1cbe63fea59b4e89b31bf683f81768;
  TE 0xc3761a305452ec43cb31cde0f74caa627bd4bfdb4573fc11a37c64db8d272e2 0xe88a5ae8b4c354ec4cb34ea57f87a4ea4759ad83f8c74cec185ded40e8bdc0e 0x4090ccb95d4dd8d40bac4e538899d77537b158a98e6feda6dec6011bb4659db 0x9b50862c02ec2ae4765ba10344a21fc8e64641a2ad87b7c6c1d67ca9e178331d26159081dfdc5c5e4983881a9ceb2dd7fe886bd57a1cd2afdec9c7182f67f2e0b9288c171306235db31730bc13dce1c225ec3ddd85dcaea6574aaa2d54ba (-0x120fb03143f2c4c61f5ce211bafccf0ffe15a07d24824ac60f78f3a216b7b382ef8c) (-0x6073c975faea974a5270a6079e720086476b43df5a0f89414d79e087597a50bd8a4) 0x3bbca86517bbd626089a99a672a4f4c6df2a3a36ab5d298e01101c062bbc238 0x4711aebc13f23d462d861e2440fd184dfc7f892c5c82d3e4128270a98c27a7b 0xe824d9c1626ba8cfdaaac2e50af613e854b19ebed329aa0e93dda743c66a58f;
  TE 0x1efb20f235eedf8557a9a1f38ef7e069b130db4ce25d0cfcc8451329c679e71 0xd4c628566728ac1699d22d6abe823db6f6ed2a7e0d9bdde8e8a1d35559efeff 0xc95f0e6e44709406baa48c62537c47b445a2b3e6373fe3c10bacd171da695ab 0x5251e0f5332ecd66d6a229f3002704ca57da6f5e457987013b8bc911c4f6c15c54df5c65b1e733fb3de3d849b16bae6b5754cd2f26330f4ea0c2943858c23b3f8bf663b578f6297144c6edf62a530fb96271edcdad717f4a94051623495dd (-0x26d2806ee6bb5628a720afe7d0cb774fb8d3cee9773524bd953604078dbf525a89cf) (-0xedd1993dd723427b7edd36bc252f64499327586ffde0ff8d788be954875d3b896d1) 0x21b3d4d64f5b2a54b3ff7f27b809544d4423c45ef9778053772a90e4882930 0xe77709d5b8c264da544fbd0a78032f6f68afbeb6e0f3fed779595dc0e70ed4 0xbd40442b37c8d680c14fb6f73e331c935e0d5097a086ac9a951cda77cbaedef;
  TE 0xed8f447176c065a51d9897d93d7dc29de95b3f79ccc8a7d86831ee2009bd93d 0x473b4faeb1dad9841081a09f3ba7d43e0f891745a1c8f60f68c50d391b2998d 0x4f053f00842a8085839c56c46cd033d695303d3f013e5415851aa1f4ee0622c 0xbf051e175142c39c8963354193863962337be63a4bd33476a64774f08a715da2127242ed6dc14ba6cbcb59e6645a39c898adf0f669352f414af077cabdda9acb73ab2024a507ce26f7978951e39b73f153e012539d93b6a32887ece31c41 (-0x1f24bc76f2eed680ed7c9430e7265762fa192f8c06f4578e53bb5c8ce12d91591619) (-0xf6cb3b6394026be16aa517b3703f02a9b205d53c219e9de9f56d1728f6339217105) 0xe273a0d1f284951afe98c9f1d92bce565c71cc202e2736f2b43f45f0a3682d4 0x43e6a7259034897e040feb2bff49f20c4fa2efd8841f31211b17e70ff396f0c 0x52e0aeeefae1753a4327c68331b2fb37cc1bb19ef5ab5544dd7e56d80bbddf;
  TE 0x2a390bebd072aa67c7d4a2a3ad32f05809ea3a764c4a6644807a03adcfe4721 0xa2bccfed8eafd26527f28b68fcd91dfdf9b55d03d983c6821539eacb8b38efc 0xd5300bf3f07fe6714238be1eafdc197c78cd499b4bd619358f4c784a323e8ed 0x1ea5afda38db50fc1a2fae4556085ed5f68773303b26c6391ce8e9b9361e6825d63d1bec31b329c6839a057c1a562654be16eac1294351e00f20aad39021319a2b9b91d023e744504301ac40a216dbe2fce46b9c1059d47f516bc76c1ac5a (-0x1be02e46dcb58dbeb32f8f72daa41d9f9c2665025dc6fdd3660e041e97ec3857a7fb) (-0xb3215739a6bf1cca1d64f5909559f7d4e82ddb251d404fe3b35782d8b5d76ebd454) 0x746e6c9efacfcd8e07ea590ffbecb9ad99f1de58f93962a6cf232b97ace9b4 0x1c0c18895fa87108315116f81ec89a0b579072f7479d6919f8dd348aa0fa333 0x317753619758616b47fa6547008f4e32ae350f815c21e8a8dfbcf90422440e9;
  TE 0x39d0566d6397f1e92d65d30cdda0f12d345f6670c63543fc116b5a74391f924 0x3cb17eec002b823a688e133bfec604ea37357851e05e75ba6769ec85b7b9694 0x299f9210d44cc2d5b62b0019f211424b4efdc744be5e40bcbc8819b34246759 0xc71d0272d3ec872969f2a47715c7ca6c9a11171d2e987edf8c52bcf1367a0ae5d1283986f610d39bcd8ffeb4a8e184d554ac25ddc703e01baf8978dad62ae8ec899a4fec05de67b2a32e17319ac902f54f433d0f8220fb5d30ec65170f97 (-0x1383fe378492dd3d1d81e5f5427c1a5097becb725df44248c78a128f30ecbc0fdfe1) (-0xe628fa0c9bbc57bff595b3f8de8fb3ca97f4adcd8c67a23c0e7ecfc87a64772e9f7) 0x37e4bff50d9e3a115eed40d04b12ea23b50e842d396a75e916f04d0635909a4 0x3aad6c6f881889aeefe4a1ae36bf5a9557d786eded893acbf4a1d6ba38a2009 0x311c55c308aaf998b61ed6e3acbe8cfa904dcfe149545c79d95358bec4280ee;
  TE 0xd17dbb89ed8461cb0934d8abdb6c1d433c3d1349b2974edf9096e7a7b99844 0xdf575a6db9c0ee95f5ddcb473ef687e91defe0c5e7cbaeafb2f125c0f2404b7 0x67f951ad92cc212b874dc171be73caed548255cb4d11437ac37913435086f28 0x65ae37c04184b47c3eb7ccc6c01e964dc880c46e0b9e8240fab2d4b320d3b76bf636fabf4348c8bbc2d9993e69a9166794e4a2025833c2a2cb016c2100cb8a84fb29118f97e11c4d743698207c46fe45a42be8928d016d7b044110cea8a8 (-0xa7daf75289eee30b8cef61c5bdafe683dcb2fdd8b3bb307f8cb38735ebde7bfbd9c) 0x124688b9f7ffbdec70e885ff59d8464dde7d20646d7a1d117ceab1af2da93c69c4b 0x515721bbb111a735aa56de6e47197a3dca82202eddf1c4cab879c7c03a2599 0x56b7cf8e3c2aa2311ea1ed17408c21e7b600266b905e069ff84d55d2c3b06a3 0xa860afd5bffebf8d2638562b3af02d98c893e726374b66bff6e60b1ea709f28;
  TE 0xc710c6f963bacb82bd792019e91c0c02ebdbe6a930a199e264c16c0ec67d62b 0x6090bfdb7e8f1380934c7d1a0d9880ca62351ba7c2e06ccb346f97f3788e96 0xc50718d7e8e2e541e433c677fdbaefbd5ec25690e422b583d694e1dae25a76d 0x54bd009159e0a3b19962d7d161c4411cab6454389b58a9ace9008529873b85fa81ea967b03cbe591d4ef6c59009ee752c2438145f40b3bdc7498d693fc7176953912a4e3f5c2a51ab301b74837b5af46dc2a8b9c63d9d9ae31089fa2ee13 (-0x287d7033fd60596bb6a18c4b185476954a81cba7e7ee9a55f2c7159762bd0a9287b6) (-0x10934550e4e7a882724ebec8cec5dd3c37b9b08f7350baf5f5a0cf4959c6ae5f0975) 0x528c3f8a2bab046ae6b53504dc55c1ce6ced8408b2769e0afbde4572fc0c085 0x280b1e91f1fd7c94e9fd30ef00ad35fe3274e0acdcc88e2d708bf3d35b47c2 0x2f2ff3ef6820c1446dea138aefa1b4c18e2eed2b52ad7b547ec118b0f94620;
  TE 0xbb09a5efa6f07784ffdc18be6d8733bdfbc80c97d7524da5d3f22a8348249e8 0xe9e99d94fe3bbf3ff0bb8d381bb656d968efc65c75c62859423ec9db9a0a176 0xf90aee182dcf1404b3a7fb1b95d0df443b6ec525fdc1da834c51a64d006fb1e 0x22d0915e573235c23bcdc56e0864b4a91a547f83286ca2334fe29034605563db0533ef306ae7c7f4f99464e68c9046c9e5804898a870348ea0047973cc41cc9039d3320c5826934b6feed9773a77c6b88bae693586b9bcc77a34603b8ae0 (-0x24a7c9f78d13429aa032f51c76fa4a84c346d0699f3fa6a42361d133c5dce209c21d) 0x82ae63fb10cead6f91676ffad7535f6f57b1369d3ad70bc58fa6312385953ae2ab3 0x98463ebafde500c63e7eacf0fa223836a976baf414f3cd08b564a264ca68e65 0xbe6fde4f1f55bbb61ba481a231de0e2453ba0716658d8e7f86616f6822bb306 0x46021163ba949834bbde4fda6bbb68cd7b0d3780ff175b5ff677f5be7231921;
  TE 0xd932af11a779e1fdceb7a7cb7fbdaa66f2d849f21d1506ceec31fd072690737 0x13c42e9dd6b37ee047b2820b70e874aff2e798aa4a8497129d309b7c97e8940 0xc36bf61d713d32143c58dffdfd39c7e45cdf8a71a3c7d0b98579c1a1d46f5d4 0x4f3ca970f51132cc943e08e55a4867c78aac3d51f0244a0941f490237752e3c521d3b443e4ac2f0a019f99c93bb04f6e1f09dbfa9544fecd6f769993a23c36361f0a6db63347355334957a25fdf3c0563dae2bc507b8a4509183561f8af2c (-0x376319e9cbb5a7e6e4a534a35bb8855e2edc9a861f700ca982076ce022c1e1388ad7) (-0x2081be48dacc2aa5eb06d43344797b3a00e5acc2c632703fcf66a202bf9dd4b43fee) 0xd29b23abfa62e6a1d7b9d0599d588e445dafc10aa3a9d30e8dbd00c4bdb0d87 0x132a9af44f8bb46f5eca91ce5418a18bb99897f99a5d97933e148df37cee697 0xd29742939fae4e76abc07d251a79c13523888d6bd96c9eb95ef6c93f8affd9;
  TE 0xb42ea6a60e272e81e4dc6663a67f50b4fda94734c4cf034385980fdab8cda16 0x5b9ff3225f8373bcfa66934cae0f3b182043f4c2ee1f3839bc925dcbc58c16c 0xbf78d851b700e3eb66881b243b84b720b4f9dd4f676f7875e8fa1c410cfb614 0x7c685bd465afa137150e511ae58f4e0e58133b6bad0909de6399ee88056c18051a737639d23f45a05e67b52e6e56101c85901cffd17a81c66957b9f5f8676d8684dc046712accdf267245138b03cb7d0bbe35cbeed7748aed13283e34e5c (-0x218f537a14138074e013ff79701ea58d79852b1c619a591e9a5ad995110655b28b49) (-0xdad59a36149ec1ee2aede2e30a275c9d26955f23f6329197458aa943dcb1020244d) 0xacd4a14717cd8faf39bdd76a8cd0abc93556d9978de255c9c8e3e193635ba1a 0x57e2eb733a603c298e4dc8a4ec176cd4dff57353719238195a070e2fe33781a 0xa87edbc917d2faf5c87869d62cde7b7e90d38ef0ee2ec23398eb265c738bda;
  TE 0xdceed12e1ad4df1cc54eecd1021dc86280af908074c052e87759560f8828223 0xe63d0ca6827288518304064f8f54cd7afefa5c906eb04a8f52c0aed628be00 0xfcd4d6562ba3b1d7532d5b4122e50cc793f1e87570d8279c7632528975c4fa1 0x1de661bb74fec38459ce619bd26d3fe2de57bdda4aca088e8053c79f3c8707a6552a99f529b74258e579c7ca4fcffe7b58affbc0037abf4d7e1492772719d423bb8794c0e7bd817eae2fcccbb8d63403cd1757052d7f956f2eeea94bca653 (-0x2fc3b7608513f98ad87c84711c50176493955e33d0c23c87cd3695aeaad37536f7fb) (-0x15d628d32d4842727bcb9387ad122ea7fc96fefe4d78ce8d5d2f81303dc590941696) 0xdca0d9edf83500d8fd11dcf3a5b9ac6c9a619eb1164a83fd41fd7e3c8ba15e5 0xe5ebccb9a11d83e19d03704bb58635b9ec70ef67d8e80af369fe389128c0fb 0xdc3962e6880e8d5b985abf398d3bac6cc81099d7593072a49ca499a31a8456;
  TE 0xaa7d17de8da604a700f4099e20ee73aa96e93b75b42f4c2b084824d623de54d 0xe6651b8a4495cc00cf35c0415a9e7f94d9ba62a15fb8d8d004ad78821cc9abb 0x14837c439dbb5a6b0cdb60742d179a3803e7c2f4e0e8515ac2a938adf2053bd 0x5c2051dcf1a4fd3ad12a3224f3ae131c762f8ecff275d2fe31eb056c5928bc50a5b2c884571d03a64d870334e1f3633dd8088eaa63ecbcd3f57ad6d445997b2683c7ae49c7cc350be70f1378220a3f9df453b6e1586bd301bfb21ec768ef (-0x12bb377eeffa9ad7a7aab544c82c84f4734d8457eeab7864015d7d8e2b08ac09a1b2) (-0x13ad8519b9aab0da04558b28405870302494e40cba46b216e54d2f74d3d329922266) 0x4c4ed76e72f2abd95888a28e4024c00144fe0c61dbd381ee02772c40ec379ce 0x671efeaba0f8603c64099941111507d53a9f6fd4afd900cf0a20b26d20a2c5e 0x7935120f96089807a7337a09cd9ee148f5eba149ea3f22761126ff9b6e743f1;
  TE 0xdd8fc88614ce22d258bfe948b8dab179e41f771e04174fb0346e048468dfafe 0xa103af15353a11a8df150557fcbb52f8aae56498211d8f3c1a4be1a54c8ca89 0xdb2d76bb3c128584bdeaf201dc72c77192988a72f7e34ca627f99df0707235c 0x4723d3c6f354e824b2373e7983484c5933d64c92692cf700c90a11aad22aba4a7b251ddbe4f59fc1dee8999f3ba6944427929c15595edb5389c7fdc721f0b1d65120842aded665d61bfafeb06bfb50d44cddf7a201e04bef49d7693927961 (-0x38c11bc9e469174f5a367b66b1d431023c64d003d879662b5a93984a89d5d7decdbc) (-0xfe7f5788995c4c5261a8bf99d48294176f512bf50013f018fc1e28b4667abaea399) 0x79461a5a3479cbf5b8572d1accb057283eebfa34695e85ce562ef64d566df60 0x5821fa94a723a757cae1089de345aab0113473d6b0e6dac5686fc129ef8b462 0x4d1833d6da8b73dfd20e1d5b28b2a6a901bfb8b70a2d2e1476f828b0fde62e3;
  TE 0x4840d3e484076b61d72a4b765282b1d21d0ccf0524b20043630cb7a4a511c3a 0x281c808fba1da6f7acd1affc9cdbc1f0b81b6fb7a8fcf2ea59c2379c5e863f0 0x9841162853bcb61cdba2369adab18d99131c772fd55998912cd1d56c9ca3ab7 0x409c56a7698d326946879e149a694136ad682a5465c170bb5252018e304e33b8ce22815f767c380734acee19a590d3b9381f54fc6e9f2f84b1ec3b299bfb4873250cf5861dd06c29dee0345e610f6b5b00d9d14bfabc42c9ba4988ae1a9f7 (-0x24296939084fd53737b3f92c65ed15f40aed1bcc868d31e928a31b2dc76fef33afd3) (-0x1d86396a07ed96c46fd13cead1959dbdfa0d34df79254e3c0715e0e71e367633574b) 0x454b7e699061da6d2b4f497da8e0b191ed3706c46d221a53e7ce609c97e4b24 0x26781199d94c8685b5d1e8abda93563fc6f5bd346d78a0b9e07059e9e4a6566 0x27c71e7cd0da370f714d842bd1c743ac3057c3ecf1a802d08cf4252b12498a2;
  TE 0x9c9d99722a88a9597e93a8a38869294c50d57b19728ba5dda1dc212a180d5dc 0xf9e5249512f0795c79eaef017c9c79011a632343b182880f51b94cb92e020f5 0x18bc35cf91e11dd8ab63668917a0783da44de1ca0e6359de83ca98230408371 0x53fb8e895ad9a006c65382f8e1859b042bf51f97c148bc93ac7ea96d5f96b0eb6882f8cf6e877d225c5fca2b4791bf21c7896554fb99bb47788b92fd35edf0ca6762140145bd339d1d24c4a02d70eba4b2a1c76623c3c74dd5e2c2b2ce0b (-0xac18875a473accb864ccab10c52214311948a2ea9086a4aaa53bf1fc029490e24de) (-0x6c6496564756e7478a2ecb7db6e6b3f2f1be11e2702098906d554ed740bf66efbdd) 0x585369d324b24dfbecd7df3d1c3fa3d5193146bfe76dbe3d1ac5269d0973bf 0x8ceea7ed7fb60e21475fb17eaece9b265b353898dbcccd398e07129d8d0ad5 0xd00b93a80bf10e666398c1682ea08b3affaf2802774d83c019c43f3527bb101;
  TE 0xa30b61ecf65494a33e56f089d06c47556d4960acdc088b055713aaa83c5be2e 0x649fc9107fc54ff5604c8239f780886a5a1fecb2f2c1cda68bbf45bb4e2db6e 0x83dff6ff7ad3bdd4856e7ef40a475430ff5a9d878616141173efb172d5095bc 0x46e1dfeab0da38f7d3a6d961a371ec0de9181b4b63753f421fa8d9e8b66a72cf3eefd86e78951b588cb0c6d2ee620292dbd9d026e9af3ebcbfce1f14455bbd9692c7fe911c8b2a585820f49e386af6cbfbe1a614817a8e06dd9ed3404da38 (-0x2ce0cd80ff8d60450f389cbaef4c87460c342a242f0f68494b2fb74908e06f13b4b1) (-0x1a58030aec8e10d7279ea03066f2023bdaa9b2db6739bebbbf3f5eb8b7438831e193) 0xd22a8d52268c0111c085636ff2739ffe0066c1a7a93bbe317dca2e3d6c5ee9 0x81b4aa1f66c1e3b5ff83ec3bf085b8790ebc945a4a2ae36bacd54eee785292 0x59c29458d929ef50964be38cad4e58e28b07c26c190e0eac570198f30d2a7f6;
  TE 0xa4ddaf617652894c86fffab71bc5a9c703b00b5772f9a7b662cc5b0d45ff8c8 0xb6c39345ffacd207ad8570b2723b3eecbfdee523b603610fea38159abbeecaa 0xd9de3ec3aef7bee973a9f320dc9a2d550e2b95b32c547bbb2571142765025d6 0x1db6a6664539aabd493235b37a73885f4f9f330834aae52b613337ae8f835f60bfb9f1860099492144d9cb3fd13003d45fbb3d07b03d165b5177edfb40ee1af08e2d616ec5b1fd12d785eb4d01857f7962fc34a55620bce359464f8caa71e (-0x26037c6057b861fca33f5482fb36427fa09ea0a3894533c77982b90bf76f08b327b8) (-0x3d5d556a5cd15179cf56c80dd28467a263933d30240688171a4e79b7a43aa9ef7fe) 0x3e0bc4117db8b03e954117fa130533ffe2a9e98b12535f19d26f6774cf3b469 0x44c81f7a4a7d5dadf5666e34e9087ed109bbe9dad7bcde942253513b5fdbb2b 0x2f4438a969696f369ea4c4b6e88e6860f65ba2f1f25bbd1d52903dcf4663e6b;
  TE 0x36eb179f87be16382789f3d514395993bd2ea088206059fe35be960cb4010c3 0x7198e8f81582cf86e5b8aaa87454fc825bb3c3f0a7406276610fac0bcddb4eb 0x201061e383d17936da3aafc4461d54bd65575285100301d52aab6bfa34847c0 0x3692547d16b574432d42436864b243f3a289cf4f0f674747f3e33d932d58ce6e9ab0ae0937245bf80d08361a4e67a0d46f42babac3308870cab7bb4224143066c60d815977398f6a6b8eb0e6f7a32505f466468446ec90e5a516b58c9ecb0 (-0x1dd586462d8e22e1f45e638a4972e0d4f96673cdc17d96152c0f7548a2e450ff6f07) (-0x1adfe58f25a25eb996971b588c5ef89796548597fc08e3da893f00b4763d375a4823) 0x25f54bdb5e10d6689f5fe16956bfa7e8e2a012cb9e72c476f5305e1e1d1de9e 0x4e84012fc5f3d686396e04cf7b4ccd447ad6cc11e22864251dac5b517d74bab 0x28fde8398b9ea86e5e28daa62876c80531816927584685e2fb77090252b1c48;
  TE 0xcef284e11c1f59bf833ebd3008e378a8f2f181c51700cb7a93943b11dfa5ad 0xef40b91f41c2b3285c2c0eebb1c902ada03752a588d2575a07f1c77f0336539 0x4707ea388ff89a918d4dc87b1a925504151d46fa2b64b0208779bddef273f8 0xb4c7b054d1f5fea5141491a2ef9a744f15e535cf38ede8f0e802a7275f53b9d9c7e7caae138a6d660aa175a9c939a28eeb55fb285d68836a399086a5e33a3bdeb46bad0fe0febb89fdbb4c712b0bafc6a73246c22003518510aa58ac093b (-0xeaba9e2dfe6453d01285920963a32f55dceb20d461834a9e975af5c6bf61e1c28cf) (-0xcc6946c9c936cdd84910f2c1aa80d3dc1b2dc2e58c6fb7ff65882f3de4f80360443) 0x2c8be36c263c42ddd1a7639c94c6c25e90144a546bf530cc2ed0b3731f3e63 0x338017393f8bebbb37dc9e6516c2624b380dfe2ccc7bf3024c105a03e93f423 0x861840d846c4a227c6d1cbf04ca07ace23491a3d3c9d6e821646597bba08ea5;
  TE 0xf0406dc19c8e97dd6f96ee3024384a8f5385da0b0e4fdb07763560541aa2a6c 0x6c031b444bf3f72a2f240ecf98f1a1fb6c356387c2cc98a3116ddb1c354ce0e 0x6c0d924148267265d90d82b78e61704ef714ff17a4d7b0a9fbae7cee275d92e 0x59ac4e9f25029cb0ca93c1e911c735788724c99238a595ae1f948feaa10daa04ef3ab065d0a276c76c8e634f895f35b743d4dcd5b20c46f066de17f0c8e5dca788be52bad40573833ebe10ffe937827bb69bddd71769f462ce0c554b56b9 (-0x23be2ba0c6298a98a0a275aad9e1186fbf8b1a0c8c5fd50351f3c167181f267f7428) (-0xcc2df5d148e590ecea513b406895cd64c677084606a5dc18eadee177dd6ac8f4886) 0xb76acb9b2ee1737d62c223b16abc0bcb74cb686b55469cdfa86b65aa2ca1b54 0x5275e52e129c210b5a34dea9e83ce706eadf03041897a94c8357597777f7b03 0x20769775bde9018d9c705426af47a664c22c3bd7a09d695a7ff68d7c3033b5;
  TE 0xf70d3e6a87e6f282537ccf4551728441e6f4830fa2f1b491e5f818b4952a6ec 0x66ccd97af0319df3a988d4a53a3e7f68146b4e3451ac0c109e83211c9766594 0x57c25763365f9168e5414cc6e56341f54d73b61f3187c250fea278fc40ae4e6 0x2eff9e8204bd22947b9a6ebd00bf8a367a1290aad96d88ae2ace9e807f1b12be9112105b898089ff76f484515e018b16c6019740b33f8cd85ec81086af7b77f1b670c0709c12e92de6d4f846a8a07ff0a89ff0515edeff6d7a00410d10c7a (-0x258230f24f1bed9dcd236b47758f8fb5214b649cf052476cf44579813d57c66074a2) (-0x1a257e8b96719756dc7563cedf41e0b8e20d8f51d92ee8596d360f995849f34244be) 0x198c1db7c92fc6d9d8a4544847d0076c2c16eaa7768191be3780aae06358269 0xaa164f5f4bdc9e6022fed0b229bde5b5d80f198f8aef33ec9bfdc435c35ab2 0x2a8eed2cba240b595126144d67f87f96073390a41000f9bf939b60df783d418;
  TE 0xe9aee5cc395c96d5c6e77b55487b1f0d8acb0d7d85ca2488d880e6a51a26ffc 0x4db4048aee5e92f3863f9923a0df7b9fb1d3fa1a805ec7ff83a857a3fb8ffdc 0x70492823b2215534a8b0622a986986b4e391f12ee2bdd5ea745ba29917d6bf 0x2dff29d2d30d35a6d04b2c223075c714868628b14741d668c6fb806a69959fb37cf4950885edd328f08e9426c206e220916c108452fa726bbe2f966a1ffbb2abbef2837f83c4c6287aceac678370e160beae3fec818787c5453be5b5db475 (-0x1c122ac8342ba5b02e86e5e314e4365d16569f2de99502af92f0825eef09ac407fec) (-0x1e67f4de71253bea716cea6d8158a27b8dbcb10cc2e4b5c86fd07e5a020f5ec5519c) 0x60a0983134a571fe17e8d94761c03134d7c54232b2e313d26a3f4f15e9d4ecf 0x20214aa57a5f727358c1960813833b8df2c71edecda4c9b28e53301d246852c 0x1f617b15af5ae4906ea038175aaa14833b6347759c94908312686aeb8fbe3d6;
  TE 0x3398f46d56e6b4a094da64de1b5e89994a4b76fc11228cfd4edc0a8e988f9af 0x89f501de6a34ea11e5fcce05e4d7ac51de4d50d5d23587b305376366fffb2c2 0xf5ea6ad2067aedf61af58ba264e14ff73f83f784d157dafba2a31c6a569b2cb 0x20e2d3122bb0f5c486bd334e0ecbfe035ac56e6de98f78528c15b59799eeca19f8531ad0c1814b227425ec4378a742ba2d4b405c403c15c7dee5010d88010ad6228b22aa2002d06b68a17e1dfa08f33e37a93ebd20e72e58d34caab402019 (-0x1df234a50178268d1504520f3c0e6abaae448b164d141f01671b402f7bfb759811a5) (-0xba6b759c4f9597824b64afb133872eaa626726d32223f629c0bcc614c8115a15356) 0x2e84005d24b47f17d65af0d90cf6bc8c9f24b5c422d3f906a1c2f702f8febfe 0x7c5ea04980a636f2f4a68895e7c8ffe499bb1a9fd0a73b4255f3ee1c0e0ac66 0x504537ac66315d42fbccdb6f0b639b557cec247dbc0bc2ef094074bfd799924;
  TE 0x9b146b434b0e5bee42125107fd1abbf1203e11364732c45a56a5689debe7d05 0x6f42c342ea0102e1314f8d7004799e2cfa0fc8c655b289f887e1cf267560a2f 0xca46ae0c4f44053e47bc3866224fef9bc61d4b9073e801419186a0c28787c94 0xce454c7ee7c5b9cd4236dbd6d249dfd9152c0885341834e5d21aa6b3d9f5886d8bcae4f01b6ebbd5fc0d2b4c02b440383758b19de6e83201a18feb5a08cff67e5722aa23ae27b62ac66d02b20a24c3442c847be462a0ff0f58908d57f156 (-0x1f77c1a991c0d29c2add1e32d569ae533aa218f48651b74405148be7961d6a4550cc) (-0x41b6527ceba203cd4f059001246214d951c23f4b61c8ebf5a66097d82c592c53980) 0x97a8a3249a67c38e558665f12305c8e8adabac19105f058bf90014e44d0875e 0x6cce709883e2e72ac4bb373cc41f63b7b03cc1328f3bec5c499866ad7e36f39 0x204f3637f1a2d12e44b5b274e9dab6ba64086320e76805c34978e78d84ce54f;
  TE 0x896d05d20d724cc95c4607d7e88bf51a785fa9c2e8f9b33061978baca008b71 0xb15e6279c6f4a44bbe2a309acc483d85aad82d3a595cc2f843a7b0d186a9fa6 0x32d0d4a767393c79dadfadd523a15f644a715cc8696e520c838c9264947a1fb 0x1f3fdc1b43d5ccc37a455eeb4ff338c06c6819ac0f1c37024fa9839b51b288c0cffa75a337492f5ecf080e359595a5ba7a337ade175f1eee242d76beaeddd69f147f65280e5bbf9b4ac1fd9306080339d2fd1d7707db2fcbf210ae960caea (-0x18d68014683a98cd838530934f944d29939edabd67a9fcd491c35f947186eb119c21) (-0x125556781ada32643a35d64fd5043d9ae9d228ee1e644ebaf8296cd7eba67bd2d1fc) 0xe50d9805168ce52c477f8e1de0db2b69fd267179467e418907bc1dacc986d1 0x127a09b4a23e8e21c83fcb5472d8fc1684ba55a348a4f58ec8766afd4a7d0c4 0x5cabb67848c3313f1bd4af58d3767d2e41df8e14ffe37d53be4eeb4b88ffc30;
  TE 0x32720a4c6c71a0ae7ace51f7db1352533054cac9456cec8dda4daa49f4dc81 0x69ac4c5dbba0063b84e37dbc92ced86bd56444e4dc7663ab616e26d1dd720bd 0xfb8263d58212890e5505370091bb07f741e6cf71f3fecbb6ab28c9e9df8f164 0x2c255b25e2184f8572afca4b7021efb9ebaf10e0ec2ed97c271fecda596305fca1636863813ae7128026ca96bf1baea67d52cd38b9ae2b9c5314658058a36c710012bbfdc2a4fae36d54d70246433a1715c6e4ea57cc94ed6854f400946be (-0x1aea6859a09e57dcf45531dca505f3cf471f10eb3e097465028034b98aa6b0bf1e7e) (-0xd1b53b3dc3242d60411bb60634bc7428d5b865c10d703da2be9c1cccdfd8cf42e8c) 0x14a766c9d68ac91580b29ad1ab8a61f8d4def5dc11cad4b191a47fca9100a2 0x2b4408fd95ddb8d230aae6ff4be9e71b1245b4bd3c747d9c545ea59f0ad072c 0x47fa966e6daa08e1e0d1320f7fed81d7da73275f3a88d48230ea5e5d941469e;
  TE 0xd626b2415872a9ed31235312d3ecf53f7ee1fc03d45f592ddcb6d6ed1bd605c 0xe98b2574ec29f7f1cb4998691b67a43216998cb37de5e716c5fc02732fbfa7d 0x60df5b8a8299ab0eb16d5aa6fa0cfd284aefbaa11881835e96724b06f71a911 0x9a78fd2a1ffb24801a99f906606274155de4000ba3106bccd20f7ef58e54a9084dbc07ef7a595bb7d0c32b583448ee578da484d8bf50898f2a70a3362c094067e3467c829c877b1485a1f993333a9417828cbbc2c63ad6648137a0df552 (-0x13f8740b3177b92944b94de8049b2ec5cbe51511cf440ed400b47e11b72fe6c48b68) 0x2d315dea031b7eb1d2b24dd60133d6c1604edafbf5c454f1b50a0a9ecf537c54195 0x7e789a62c1e2490e32ce5b5c64aed4e996c9ed45218a3759a414f6119de2c55 0x89ec747a04b3ae00178a3ed633000d3bac49cf8b60dda0133dd33e56f366bf2 0x881e1aca2c6398afc367b51ba06c34f052f72d6e03b4be8c166f8d908d6ef53;
  TE 0xe06efc700caf19c50eef9e05c397f36236e39804bec3194cad875226f9b998f 0xf842a7621e77c5920bb3b621f9db9791b2283998d9ddb0f72cac250994927be 0x73694e1270730ecfcd73d6b0940396f2059ff2a971b7cb1e4428a5ad72987e3 0x5a948a03fd355cc914cb885f863843bdf922f057848573d0c75e1761c69a86fa58096f475ef14efaf4655c9ca4e67483cb8ea2808fd7a9c0332d9ff0ac7aaf0934f6c975c46af988f3ae48bbe5d412195c7ed32c854dc3e1fa1312e1db875 (-0x317fb614b4f81a5d7e9e8685d99b7fa67ba4803ffe5241383860eb1a65ce09b888c4) (-0x17612a2872f3dd3188d117318284c727ffb42d7da15a80b9a4111f78e0a467d5ed1b) 0x67d76fea9b7338c8b8c282271b2ec6406386966b6bdd5340b35405e55b2eb8b 0x72dda61d4a74860bed86ba401309f156c62301d2280fe254ec2b0bb7e0b63e5 0x8eac9233bb56a45133aaa59a58b7dbe9db516069763eec2d015cb16a5f53dd4;
  TE 0x94c836ef1d903f82db8557bf02c3d8db5d08998f1808a2ed5f6e6d77eb44f3b 0x1a3f64033fb23d24bc4d320edb33748b2d5efbd6478bed0c5cffd2e5e1117d0 0x2e0f196d77466ae2a1961b1ca82e256ec5f00d3b4b16cc10d6f10e77f053a36 0x64e9526321ea1a536983d7340be8d99c26afb0f52f39f00d9a6cab9de4c0db0fe191832ed4527bf491f2362acda4c5c1ba7fdfc7f45679800f42e09ef6250f8047598fb39b2b1ec5800b9f4b49edfb998d5e894bf98547f7dd0b853dacf38 (-0x2aa8ada82225410a3560df0d6cf0a2701faf54ab56c7bcb8ff5c04c85389b0f934a2) (-0x264f7888f068ab4a45bc94464aecfaf435003c620c379bf1b30e53abaf17894fa4bf) 0xf2648fed79d01524cf6f46dc8497fdefbd8bb3408ceaf42f10021ace34dee6 0x2ac31905a0774b317d6cf158915ec24c2d7e16d98da29e114c3805ae16ec85 0x1757e37d1bceef51752ba820a3e20adf937bf2342f52a5af86704f985bd3448;
  TE 0x1060d063fa8ce37d5ceba0ffc5605c740bb0c6b33e7ca7e438ac1cc314dff07 0x46874a3df1143c02c905d53da450096122fba23fef5a8200274f37a82127b15 0x46764c2be851c261642efbc55fac74300d05e79c901c8f5533ae90d8bdd32e2 0x7129cfa325d9cf2d37b8c905c9c3e99ac20b9df483b334b91280183c863b2a645dcbe46ed4c18ccf6f55e2d8be9e9033eb68fa92f555191fd7cbc37153f503e520aa1bc693d0c5082827e8bb3caf99c4e3db16ea5c8b997d84688a775fa6 (-0xd9d152a674740d05971911b39eec8cf51da3f7be4b9688883e422ab029db174ca80) (-0xd96e487d4f0cd416c9de13c8d5162a7ea389d8fa73254f9927b0272064c430d9384) 0x6c075fbc74c9e8fb1bb22a07c4c082c55d444c285a434a510d8d6630ee1dcf 0x1d132da46f8d7dedbc6aad5f7839bc0d834071ec8351408471795c14ea1e69a 0x120e41d53ae4f8630789df9ee2438ee2852717d61fb792c46b0e15822c1f878;
  TE 0x9f9ee57e68eb4115c75b22bc3e3c46b3ee1b7e56ed450c12a23fd724998a0a1 0xfd9210f06555c1e7c2540647d8092add8c0bb232c7b902bed6d23fc8e3fc189 0xdd68f593c38768cf77e914d171b46e1f603d456faef0289429f20922b9e361a 0x217919a9d89c2056432ae0e769f4c3adebffd3401024c5438c62ff9797faf8cce4e904d13f2fecb435443ce1065a27a15441197968291fd7786149828335d8ef64fb13a6994961d76c3c09d6f8ae1dfebee15735f71e8451ba86a7e866a7 (-0x18755209dd516e454efc420c333b4dbff903f5b68b5e7c4e4c182323a87a1a9c1675) 0x13d8c800a48043c3c0689bda6b7501cdfba7f1dbd22a271e64a04afcb39cb3a2f577 0x32ab51ffa4a4121d9dd2a9f171d5cdd8d534b78834f40baa4c8a97a7af34a65 0x507e01e187eaa89fcdca20758ca80f940dba17d5bd1e96495e09dd85b1e3788 0xb98b3cd62223b3a9ec436322905a06c5e60f92626e73e60ec82861c4f4c5add;
  TE 0xb244254e45bfb814a942a68a248297ba5f6d9e37f3fa433153387bddc488d67 0x86da67bfac6eb7bf5ecaee4953598678e6fdf2df0dfea5ea11ae5ad7f2e4444 0xa0fdd5a8965dc677adaa8b1cfd1ef84e7b87f856e2ab346d400ff40c5c0c234 0x494e0fbad8ed325a96ef23676a23b844cf72cd7f3c708d0598c1ec06a820ec55f85eed9eb943ca27578757eda322126925f169a374ef0cd76be9c8fe8a7c2b87225462409668b302f567968c9395f487279e3bfab0aef62312a1564568487 (-0x30d36cecd8d25ef96d98c52d1341fc4abc92ed860974e99803129a1f94a9009c977d) (-0x16eb12ef32739532472aa3c8a1a11fcc383e63d8a4ebbe9009b1cfc5d1f81d657524) 0x80c4b5824d2a4faad52a6426d6b7a9d9658f0120cf519aff0305c2614995ef0 0x6168d5ce86aa8ed537cf22ebddf6ce02ea9f6d4384b36000b3ee68559a0558a 0x1aed2ac7ae540ab7603b1ca4e84b035bf1ae1719ad65fcc643e22139a89f1fe;
  TE 0x602d6b78b64d56d2c0dc8452cb48c841272ba6a81c53401b58fb1ed2f07a267 0x7ca7626dc638a99f0bb2f3aca73b02c35bd5b9ef4821fbbd7438fe28335c23f 0xe5f216e407af57596b8b3b029448c5bb16e6f4cda0124656213a6ba7d06dd40 0x2b89e6a1f9c2f3fb91ffd178533526f4591c6e705e2eaea462aa6deed18f721cabeee2bb616b020867501fcb14f07d982b0b76163b98827315876c56e05f478b2c1e21faceef71030bddb0e86b41756b1aaee92588c2a7e2474065dca6994 (-0x23d65382abc6368ef765a044b7f79b36e7291b91f9bc61a2dc236917ac859f223e88) (-0xcf5554cf82346e38f943b46101b0c99cdd7ccbf113c5a247b8ea65cb1f20bec3afa) 0x41ad9dd14ee415497d2f71ba4861cb6423c0c52f6354a29797cd17b76f394b8 0x551fd453301a9f79f0ce28b9df567b520e74620a8d90720f852c19ecc9a716f 0x6eb85366633369c3e1aabf3a1e75c5d7a47d82a03e25dc07904033529386b30;
  TE 0xa5e1a09aac0ada74f0083cff0d22fff760d14e00f4a10b33e15733cbc1b0c91 0x41183ca6cb013f615d3040aebfaa1f04c3a2736d19631c36f0f7d3c519be782 0xdf55135a5345dcc0474e5d49aabf2b67f1c61c000936bdf3800359b27adf19 0x15b694a6b53de7a3388c6925723c68d950a1d436e997ee0622b86ff07b9c45252a1f799e49bafbcd3c8b9ff988b2b93add75596d0cab7d4f837422db969e293444bea6fc3f57dd175e50191f717e529feee1c1f647008f459438b350b643e (-0x13b6ecf98782be57aa8a7813a4febededa2cea3330eda7859fccd59c71cc29d27443) (-0x1188a3c9f21fbfdfe5358a3b9b4d962dde30f626135e2ec7ff29511de0fafa71ed3e) 0x22d7796642f74d0b975cbbb7a934cab89907ef162fd4fc37a71b56bd16f0cf0 0xdac27667f1f1dbbe01225f5556f91ec6816427834768fced29fcb2600d2dca 0x2db613f4df067b52fa27624dd6abb2ad18d5157733c421da53c96006eec2c4f;
  TE 0xacf45d87afbc79cbb450c0c738275f63e12c6d0ff711891aa90fcdb1af87e1a 0x4970e4fb9b6c1a1ccea7ba9a350907134f21251644d16faa60b01a0bce486c 0x5ccc5d68f1c8b3a86b6ec6ba118d5f82e37983af23b2cd1d321d51b19907b0c 0x138e6e14edb483bc4fc3804251c2b81b9d58982419169d3d726cd6cab7679734db7f8e549dfcd6975484072d718237e0082cf1229810d03ef1f7b6219577c8aa2a766ebaee9403f6fb546411f2f2c003ee77d2870abb6aae5ec66c486584a (-0x19828bd6a1dbc6ba516124679dac982a6350eae26df349b55058d960615bddab7e4d) (-0x141bace25e18fe6666b337721af5d671f33c15181d714dbe4c0fad1ec563421f2315) 0x46c5be50a9246ef83c85935b74f9c4a3748917791bda08acac632f000aec0b3 0x1e0d43aab583c7eb4998fc361f92c4ce080146aa89bfeae6fc8115c02481ea 0x2de424b5ec34cc98c3a81ce7708e66e8c71f0119bc0eeb12f6936afcc135f4;
  TE 0x832765acbac827b061eeac863325e770b33700c2b7cbbb27873c12aa947be3f 0x6f1d95f119c945928c6f29061cf134fde37adacc7d7302d08099331f500ab5c 0x636ac8d686d27ae71cfba2738c198e0c2a9fc4d45aa58a08277002fb84243e7 0x170130ebc358c1a9c99cb99715ed142bb276681c30f18de6f1e4dec6645aca5d1d8bb25782baab6f16a94d9a5ecc1ff5e6b10c5496c987613cc37bed6b0c25e391e1cb732372cef7b40a863366464b572be0270bb9e576b1c2ba83570bc5 (-0x12e11f4e56c4285aef29a352ddd4c0d7cfecb0caa22b3116da67945e578857f8d763) (-0xb7906fec06ef327d022f08cd3c04c20b9aa862210efae07b7978e1cf139ea2c8546) 0x1f73a5a7c80fe4a3f6f2a8d6a6fcfc40336a8e2ce9173a5ad8e70739960acd 0x1aa57a3f9f95a07b84b8f7bfff737723ec634598637cb0932d3c8c96d50591 0x3f210736162986f532e69177cdfde1e918b60c589b2c3a42479eb4bdb612327;
  TE 0x926ad235604408d15b74a9e9ac661f8acad1ba25131898111c861ce24af08dd 0xad5d8720246321db7a881cec27ea0095eb2991915604bc50d6dd3eb6d4b1564 0x12797341d8d629cedf9642bc1f2909b30502bcd77be9e513cdd9e8564a8c023 0x1a64cd63c38bce4ed1c07e4c33338a1ea310f4381710d4c242503ec9461aa6259ba9d1b7d783e15ce987048a419151114cf122e7b81298d614b60399979ddd506e6ce08f0f504f0f10e1151c144b14fd30700c7fd6068292e924a838cf6dd (-0x151bb0b7ef4c9aa9ea555520f317fe547ccffb4cf61f2135876bf2d65d64b8728cf2) (-0x12cbba1ea9d4a0c54c675b03f519fc519c7122d5dd8c50526c1d8c1f4fdf4cca9f69) 0x73ddd60f48b894bd66db1ec472eb6ef7e3f2d2f4bb7bc09da137c21ec432d6 0x8931178a85e29542a15968bd535b91f19c83da7c172a8470c7149f99819d76 0x193ad218c3ebca7dbe428aeea8d744ada13d426d92938a61f331ea9b95378cf;
  TE 0x7b31bacad30b2d59862977dd2ab6f011014b4299101a0386e611b7a4c5eaf1a 0x82d9674c4034e58c3c664076b0e9eeb26aaf83a5f7a91d5d9e483146733f5e0 0xbe8ba52289e153d832aeb4aaebdd03154cb62895183963a6c8012c2999c58fa 0x2df900e5778f6a6e14941e271c635c45062ecd7b3310ac75514d04a01de8f418c3c02b71763bce2dcbca0d13e79a4c6aabd1d5b6c4aac07aaa2ede8568ae32788279ced70eb1dfc711c514ae99704738e25bbbd2017582e0c3d7162053d9a (-0x25d93ddb825d6d3e9935ea46dad99d040e3a696c7886a57e585727b2391c5cd85297) (-0xe7205c4bc7c078449d08bfffaae7b8eb3d5ed2c3ae95977e93e19bf0a6c49b3cfe7) 0x5b7d3fb5a9235e59f3a84909d35e786ac120303a8666698bc5e4999bcd065c4 0x612c95da2f4427bb8766c772d11e820bd2b3d1a1d90a30ae14a385debbdb8c4 0x89b07d18e31a33ed614d5372251974c600d1b7ce0a85b19ab75a91ad6aafe4;
  TE 0xc1a7e2ef79e9f6b9582c24a4bef0bdd93509a49079496215220f2e193bb3672 0x388a4be6461c6b09f30b5515191680c3187bc4f6da640d0756a30f0cba2ea95 0x1c99cd4162aabf8d72dc673cb6cb9d1daa274b61503a8d3c037acaad0e59f51 0x1d31e4067c79e37090f28346957a2b44b9f1a73d54868b6bb87029b8682ff592738f937d146d55445e6120e0bbaec01d8b93947874f1328677a7fff79d321818f112956861d36be5ed89e57cfcc80b41027f94bdd3935d388ad75ff8d41cb (-0x17bd5531f0d100e93c9d49c540f5b93409e253dc449e2dee5399078e2bad5e3498a0) (-0x1431c28d3400c73c317f9407b43933625f9a01368a476dbb87bfdb9d6e43cca5fccd) 0x973a9d57116b1e1e13e78fdcc28574c1d4399170f7dd96d64c3b730cfd08859 0x2c27368ea9dac6385a7bb4fb9a4821c47066dcccb544fe14f86f1cdf5bb4780 0x134e8efb3492ac20f23c31b99f613cd5c3423ae1b2d62f2ddcac7910319d53c;
  TE 0xe1184b5b0236604d93f2c26a8663d96a06098e8f5ba6de4f8eb4500194aa6e3 0x53c0c8e12028e754a5c7725ecd8988d4a941cbe7af37b73b932f0adf64f0163 0xb429ad969008daeb656154bd81000f3d20cd9c0007fb1a2bea61c8b67d722e3 0x13d49a23ab2d3364fd71c4d9d17fa720fb319c3768dfe1e5f8a214f59de249f9b5aff45bba8dfd9783b7d87919297d768f8c33a04dade4d17e668d3f89c3ac89e1aef137f9654108a5d12705d30fe9ee5d51897935dd4cc1a91b85303d49f (-0x2635169ad93f05b54bfa3e44b89b80a3c96dbbe636a3250a7bfefbbc6223d942fdfe) (-0xf3990b70a44e34d1c381e02e3401f0ca81aa5e80af8b96b9a0fe6cb87da80a268a4) 0x4a4d0d6f62dd28f805e6c728b74817cf510de424fc624c3e168da719db175fb 0x1ba5551e216bdd67ae91db0d3aa24b6aa653f4bdbcca63426fc8cd62e80c7dc 0x37c25032e8605161b8f4cf19e538a1547425486ada2f61e0e8e0d29bb4a49e5;
  TE 0x51ac355e600a604c668b81b41654379bd357961ca61383fc8c43ff11ad9ff8e 0x9d2b9b3312ed39e792bdf1fae6abb4d00f063a7740b794df0dfd54943e8d37d 0xb6be477130a1fb82b797022b3a3ecb218f5cf24e2a1d7c8bd318e733ddbd4b 0x2224ce455fb23730d3bb9722f07f2fd30bc3ab372ca4ecd98cd40541667bc75f761ad7ac5d58057554173c27eead5834f506d8e41d6ed42e2a8a854b641ea773600df711012c34a1ce80857e6686607be6786e3b35b45adf2685e0ba38cd4 (-0x186020eac9239a4fb481b424e529577c4b59234fa17ef987cbf5fd4c6a36d4c117ea) (-0x1a6330601bfdc1c135235a31f08456e337ba19212a04bb0f86248cdbd20dd085e45f) 0x46d8fa15c1979e5c9c34b19ae49f99ca0bac93cdf6a315c4229f0530eee4f84 0x8856ab08a7b79fb7e854b27d462eec273f8b3c224fa273e6979a09d6368b433 0x4f7962aa62b54653ee767418454c81156d43cf1128f6f6700cc4d03cb748d67;
  TE 0x9b866caee6c95b2532685624902403c50731dec060ec1dc9fbf0e777add960c 0x84918e3c0f7eae2f9fa5a2c42bbada1adbd7f0c119b7c423937c7a33e4b1915 0x891da04c42af88963a1910c20a227c046ce208e718e40ef04f984c19ad5bd88 0x173f956be30e1e2670134a13b827e3c3229ea5fae51de47a04f59a50f9f9e7ed2359f90e7d9b14189900ad672ef6535250e45ea80abe6bc9b7be79e67e5af6980929ffd765744473d591e5e82b417ee976977272d06d82539e7647ba9bfba (-0x1eb2d395433cd9fab1c730fe810e7987c3bf552cc6a7b1e1c822d66bf3e5e7eb10d5) (-0xa5a5ab90bcad0dc3ea8473740230c5e651f87682a6048c757ea3a2ea5f80e15c27e) 0x75bdf8c2eb11bb254f4819208a5670d99c4d73047f0ec66b883ca418e721c73 0x645cd1e88d0bd4cd98d3471f880d1138f5a7c58f1945dfbb5a1251f0e98dad3 0x459433cd13cbb04a34981ac2f1faaf5f8e9cf4f5df5f9cef1bc2b63d234c0cf;
  TE 0x7c1890e63d5d4b20f2e643ffed2a1ba86074eee943f76f7ccec4af04c6e6f71 0x9a82f3f5798d57260793c61b55cef02bba19b7ab09674cdfd0543cebde68f60 0x26639934e49cdb6c4cfdafd55bf5a7a9e793af1d91dca391f98738dbdd4ff33 0x25574d44b7a1ad56e1c5655ab277cc4b721816c6e2e1e99f99da3bc2e4c388ee40db32d9a912067e2943afb0361b9b958cd74bd422be124ba11d58402500de64e1bd8e6b278ade11ef7b3ee43b5078ca651cdd148611008a464edaf88e115 (-0x19d6be84fcaebe80e21b10fd9d8bc043633f6bbf46a6d113b9c68585d55bd1bedc12) (-0x15578b909d00ea743dfecbd280486578271006d3738e6b02d4e822a5b71036e39ad9) 0x465249c2c50de47173188efee74bcd0defd226f16d9711af6f55f782390449d 0x578e9947ea665ee79aa5abb58b34570f6d651076e729cbec424a219dfa751bd 0x2455e2b3e4cc78179f92e3cf6fef0a0cbd21bd790e91ce843715edfd3d34498;
  TE 0xb7ec4094e78dc89e4091cbcf5e3369de6b61293119d00dce3deb97ced9e9c02 0x4a18ec10a53bdb5ac88535e1376091d2da98665d93d3bb91174105674799e94 0xeeb692f4f6d9899adeef79766eccd1b1f3350de942cd9dcea7478b93bd931d6 0x22ba09efcb225bc7a4c461dc32b68178b6a04f0eb62a33ee104c9e01b1d16ddee45da8f5e3a8ffb6a407eac4040661f958c6fbf9d4c8877d9c2d1d58454df92b82dafae475d482a4a0d7bc6c4ccf96670117f5bd5aa603388e74d4d0d47b2 (-0x2c1730adc0a63c8d9288f011b476c705789ef8f8573d4a99acf6c5d0a2c25ad98f67) (-0xe6715d86842d15ab8b52c47173c3efe3f8a67077510331896945023595c78a40eeb) 0xb4a6c8e5fd49b5a46f04a74f9c35e890f4630c349e851df481392d9f5aef7bc 0x48c787ae31683050b1c941ceaa0ddcd29dd54e9ec04ef91f480bac71e80cbb5 0x1f07c609921cc7ced042ca74cfcda55931b1e9e9f3f261f30f7c31102474d8e;
  TE 0x9ecc3867e88dac63e4c062db6cd792063d5c3d489e3f7e8e404167386b529d4 0xc58c525e8f6997eab5ec1391e068335cc316a91d96e56d8c6cf0f6abdade801 0xd232460a7bf4b7e525f52270dcf65d85509e0c24ce78f3ca0c75021cf96e24e 0x18aea3701e95b0aeb9559373081cc7f719356f042326b74a8eb9eb816080d5cf9df284416f0ef5c9690a5ade80595a799fa832f1ec156ad75705e43982f6fc5a14e798b2855f824660ac629dcb2c95b811f3ddf382f2019c036549a8d0432 (-0x23cc4216ced2d8a406f6316217edbe8b8edb32f4bf3f64a381e9b8108ba051627b8a) (-0x31e1c21c205bfa263e79b409c502a1ca060328e12caf7303278fa9c72aee4b291a5) 0x7baf538fb8ff6f09247b4a30a4e55e1f32df34e6dc8894c6457e1c4bffe6752 0x99ddeceeb923bb3e2c93ae55f5b0673de923649e2b1e0827483dadaccd69c7a 0x755df8ed191b8c19b452bca8a9caa23a62868a6fa09ebe83bddec9733abc296;
  TE 0x6c3a7fe0baeac73672a57ca5bb89c8f9723d110264bf945277268e7de4239f6 0x78be3c2743ccf446d9f1dd962a098a06ed3be898a2c853acbd097d53eb2f376 0xfa44e56bbe0c7478d4a315c2b5e73f62cfd85f4bfdd26b0148455feadab23c1 0x38d09e59cc313e7cf613479f6cbbecd1246eda5750903a3b917076d511d11da8e7d0cbcba428f7e81ff675129bcaf28474971919cefb7fa6a467325ff5044fb283f4b18165a2de08651e0c9db8768ea15cfa6fb5b27122d08bb41c8ce5217 (-0x2ab6e8a8b6e05a9078caa6a50e7ec264274c20d93c3ae6bfc2c7118b78337b2ea785) (-0xed98fa6514c2510ab4fe36ecc312e15700fcbfcaa73ecb8a583dde2619cbec64bef) 0xc7fc79aaeca9865a8ee0ba82e6a5b502d5782772805dce12fb6d55049124a 0xdf1c626f78acc3a4ca4ee6de9aec76e073ea26479615cd0b97e3d35543030 0x7714531a0a483773a3797c7bf715d00ee1e1e65a42468f598ce72ee6fec20a8;
  TE 0xf781aa4fba96f4ade9b214ff00ad1bd8ccd3af4114c77d70352856d4c6cde3c 0x2d1bf4051b25bd9dc86d98be7419244964851fd1766642fe12ff2f3b1c3604f 0x5800a99eacfc6b720805cee94858444f8afd3152480e2d9a90cad1698c55403 0x17aad5cf23453120cdde036a76ccb6007c7a7496b448f6c6190757ac9b18c36623d5aa7262a37fc461cb7782288b3242b23d594f6d9b8a61407ce32763a1b952046e3636eeb6e60a61bff2373c6af0f8d3077b666a0b2461b0c7a0c473cbd (-0x1d5c7b2eab885560bf9266a130568c089eb8c9c792a00755fe54b9179e10d5f345b4) (-0x10f4350047ee800f78060df52689606ce54dcf1ac7e02823af3210dcd8d1d9594d55) 0xa8650d1f19664a12b56c792ed750ed39bf91c62de7fdef859eebe9661bcd985 0x1eb0d25abc5b9bccd4a4ad3fe7e6fd6b17263a7f261a018296d3de3dcdba7a7 0x1c852b8236c5ce65bd19b15a53f958ec60bfbc1a5822ac044b84332334a90e6;
  TE 0xda75261f71371fc602abc09bb09742da0dda154d062b914d0421b445f338f4b 0x1ae40b7e3b898d2b8787e30887ff59578c629c3425d3e81db8880b35661e1b8 0xdee206736c26ea9c6adda2939b8dcbd2e9087a82dc65be7d155411ecf5666b8 0x143881afc40cd731f8bc4a7352333269e5777e6a887346809305247ece8a4789ff85cd63608f089730bd84db7422307401cf34e0c5fa0910f2dbeb5b1ceead190d079bfc7585f1cae4f105350ed8b5e262f4ec00246fcb5995e412d63af34 (-0x2cc9dea673a63d717d0c4d609a36f14548d30619578c02baa418dfbd66b5935ff6ee) (-0x17c77e95c356290f34d489a876bb0275ff16587db3811a11b1041bcb1ef2496f834b) 0x6600cad80ace19224189b31dc570b240bd8af2ff17d8b059b663d29dab3d41c 0xc8e53571a4569f68c0103bb59a150a5581a3b920bff055f20c2d2e61a651e5 0x1a7d790adfbdbf4b451996f46b15e7e7b8664316e4c48c54758d3157338e965;
  TE 0x1f483c04a6c56eec19a0d124a932b5df4e798971514c7d2ab9e9f4754f9f9e6 0x2cfa2fb6b4a44b3fcd71606db839d672711d3279763252b1d3c79980d956fbb 0xd0f48a8aea763966eee815138ae2e7cc5bbcc95da641f787816ed1f67a42dae 0xaa3adf9759052f86e233b892fd13cdce35a4ea06392c19d30542523e5e8ec1e473003933aafdc50e323baf28c3ecdd1f1c0985ac35c0f643d4ff8c67a322216614e112ac26f97e2d37fc0800982752714499b043dec7116ae58e92052692 (-0x152a94b2100ec6390637f4e6835833701ef1b04d4930192fdb06fad43fa94de67335) (-0x1222b69ed36f1b6f1f28dbe8a317d91850f3b55aac1440102cb7bc7fc7a907a3bf8e) 0x832d0045ba78b9eb27a72b345ed7fb1fe40273ad163abb37f5ff8d4466f5b7 0xbc9a8a67b48a6b33d7420a54b11df7bade314a6030e1ac4a6709782025df26 0x867fbbbac7c65df397ae1c4971a9cbe04e7c3836b7418150e8e327cb19a9e1;
  TE 0xa8d0f8577446856b8988560652149c9e2a2c9a565e1deb641c65fc3b2c81041 0xe62101ecb0837ceea2c2bca9c508a286d4608247134d623495b8e8fb2478182 0x7d18a2313ea6daf8c9ab144977bce19b8e40bc7990ee40b00fbdcefd92de2be 0x28c5780233baed07650e6f3f79a54f5410ece9e2952dca8d5e87dcc8ddcb0d65741eeb181f23e8fca8070068d3972256f6b06af3855383b264533f5575d3fd38445b9b7c5cc33799fc2295a9cb08ca3936303726e65371aeecf3fa992f30 (-0x1069aa30110b3d04c7bd390a810c20fd9fd3a624d3f990cfde31de5cbfd93453077e) 0x7631550a195b7a66dfc4029395d5c5eac016daba030fa70b1c8869b8cf2faa203b5 0x7c21ebe8f0a302868e5c9d1e3bdc8ff27140ea7f0e4e6747c47cd13448bf2cb 0xa93764b74d7186f13860ed8475ab8d5d86594a59039d5b783856bc71cb3fc12 0xb86371f2b09c7b2399926f566c3a479accd886bed9ae9e259b467f272f995bb;
  TE 0x4d1a96143b8f75367228483f7d63c482c0d5068d89073755c20e78202be1c5c 0xb0e687d4c01e372b1ec9cd4a4ae148082e4aaf9f5ddbb4f9ae3fbf9623f4b43 0x8ccaedc1d9b9a46ef063f19a2e308f481a0de96e9e2a71c3475a5c4dc7943ce 0x465c5cd76a4213be6df2cace8c104b7a2fdaaec2f327439f44fbdfbad84e6d6c8b29ba7c1130b93c403f84e3e8f1c34aab859bee2dc385cb75df5b28884d16d03c3f54b13c40c436ab176a8625a0d54a85ec9e35133fc643df4be343452e0 (-0x26deba5edeeb94bf2fa568972d94f69bc1f970d46e522039f13caff2e5026de88203) (-0x149d69c57207a28f9d485504ed016dd13dcc69dd5294152f1723fa290d9b6efbf1da) 0x371e000310bafe7c49bdc125210baafb682e570e78aaaeaae03183b27f86229 0x7e74c82e84ad1f94d0b569f5fad4734719e861628cc08b8199e5dfb98d28f47 0x9e737e38f9a6bea09df6e1c18db40668098c98537ebf3b1e3138f963331a691;
  TE 0xe70d3c302d8146944dd96c78a39495f4f0c0c4144fb69d9d625547f4d4d5e08 0x422c29f06d54a9ec25f73137a3046788baffe6f5fe3efb1d1a0c455e9cca227 0xa03d781efeb280dada0bda1e2928afc93c71d2472e696a73f600206106744 0x18b3fa0ea864f33c26bd1635fba0ff0a189c6e584341f991a7d5780e3177949f57198b49467e88c31a191850ac064fcc9b5444ec8c899a982a1d42d0dd19cc86ed63f5a12739afdb797d971e4df5fb03b43b0847131fab38f7f57c267d1a8 (-0x1645cb549a6eecf0b4a0820a7cac57a8a738b6c1ba1adbc62827748c4701645a9171) (-0x13dbbacf004839ed5610aa3d21037395abb1051467d7b53f6cf010c81103733c6dac) 0x607ff359c6a727420c0b43ec35ddc2a707799a9a33c2b40ef56b30068c286aa 0x1ba32331b9a3d63d219f888550d1dd4d285e349efc7bae2710e482ab0c21d6b 0x6af3e889fa4787cf5e6156bcfc4d620bfb759bbdbbc264ca21f8833c7619d7;
  TE 0xcf5c17bb70a19bddbb926b4bf54b970ede4e8d638a689819681814553ba9515 0x9497c09aa81c0433f3d88974fa4ef6f182f415f183b010e15b1ee9660745c4c 0x27d427c03a251365f11aa2b27d588d83cc677ef6aad5604f041e74a87dffe87 0x1bb0c96874c62c51df7bcf9b3f3f41950173f6d87ed92418c1aba89dbad9b10e39bc1f6e97e652d40447240ad25268778a8973aeb4ddcc7ca1dcf29aeb0fe683d55acaaf98dfb56e208c9e939a4e96e1bef81ea3ac6ee516e716578bc5f65 (-0x1a95c62d255de6ccfd0c564865332907f7fe88943bc5a91363d02a0e68a8abed5528) (-0x17c251e1553f41cf0087449a8c303eb6be2b7104e90a3f525566ed62a080f84fd2b3) 0x3b2947c7a8b4469ca5df0d537592d1b74386ec06aa4bb4d8da4b8b3f064afec 0x2a65051960360536b47ee97e171af47ea6ff35d46bcec1081c8d84f24537ae9 0x423bec71037b1d3812e2d569dcf29e3bc59ad2a241d01dd626d3726cbcfe99e;
  TE 0x4a9ab61befc90ed0c1fb78e79f1e4030c0403f886e695b739bb1602523061c0 0x6b77adb75ad054196401e0dfd56ec5acbc22e52f4678417d13b8960be19d485 0x65a6324fcb5bd26a00a9e31aa9b5a07dad840aadf5ffdef7d72f10b73f09c3a 0x37cde36d89b0e7df6135d9cda90752c630e9ddabefd824f427c1c3ba3d49bd1929a33b3d350954351fdeaf5376cb02f6a8d204e579cf2b86335b22f28a1782fab3c89828f183caf975c8817482ceb2e9ae099bcac7e05216c380c3efe5092 (-0x205e860e8de451805dd440a14c74f41d7de1a663571a348e1519069788001e1d96b9) (-0x19082693db483758c669b2f9d336abf296eeaf9cafc217425590a3554eee79f29776) 0xe0a5b78f8bf0477b7c81441d84d86cd9eb06a945e664be6ed8043b6feff111 0x1439ab3a8f456fc5d3bfa08dce4dce358215b9f99e877166d47dc41b59aa350 0x3d3e6cbb7f88901a004982a84dc6e60ffae8ad8e68127ab462d58d7597a0b33;
  TE 0x48d5ca68aa5f4bf3a3ae564c5426541f9135a72692201613450b75a053359f5 0x427e0524be550933169d95ccfbdfe9c0b35074454f8e7e825d8a76c184d8b11 0xb40a370967e1e379052c993328df7297f61a95ee567434c9b0b30098cdeb0fb 0xe8549fc414380a329e5e2e21b1f807ab8e56ab3fac4f0bb0a90cb0a79cc98bbdf89fc2a29156647f821c0585be6d55a034661c0d5504ccfc5366739ab1a1208ec390802c64e418c5b10f5f9ce81daec52672fd57cffafcf1852c4456dab9 (-0x15a29c23158f155b423e6b62251a735e94e47317ff00848b1f0f38627becafa89f82) (-0x91126e8f54e6202f5b14b7419f438690e7b5cf93839f9f0d6e98473832958aa8e20) 0xe0c7b4cef763bf450717558ce9f86cc64f3608a64debd6b37b8077670e40a4 0xcd3481bd49500adee154c563b39f19e4db3a05d6d3f70156b32547850b95da 0x355080334a933e9fefaac1f1ceb8f146fe66812722354d5e43fc150badb72f9;
  TE 0xd08df6419b7305a319562a28db7a3f556e0ee35c2eaba68522d8339797bce51 0xf5647b121c63b49855590b919f2db7f90c3ba05de4b0c3a34ac9e7767fbb6a3 0x343bd77e28d82cae95b2daf2663d43c3ab422e37e1efaf1e1dc41c397cbe1da 0x8c56ad8011f0bdeec57d13f497fd50f3b6e4a2858f2702e2db294034f8cff9bf0c9d9c8849b1d2034a4fd097b2b7a034ec47d38480b1e07ee65343a21f768965ea506edaa37f8524ea53541c1c09b05d27fac35971737e29f74bc6adf81d (-0x1097ccada33d248dde3af684ce2ecea402cc301c702f039b660157863db45fbcc497) (-0x595bccb26136e079a22721559c916abd98c334cb3c4cbe4dc76e1f2c95fe3c28905) 0x12e1734045226fdd6828aae4e0769429e1dc3222d465f22f93c519ca7e2d2f5 0x163734831a5abbec050e1a6888a788e883d5422576771b7898a306175cf781f 0xaae837bffdc901f50b6a4b94fddf13a1df309da941166936f55023ce8d8326f;
  TE 0xadf4fa46b5ef3a282bc79cc5d3b10d9c97dd04af7d3ba9237aae4d56e64bd2b 0xf8f9647e5993067ba6a9652caa6a538d9e67045f7b71d7c492d88df942c99ec 0x166799e961cbb523557f91406f4f6a44b5a38e2e24e44ecc6b4e4faf0da4512 0x5cb0449ec456167260646d4e77960255e307e30bc77e2c9d33c9bddbf540da22d676d931e7ac2a393e7a29e48ed963fe57b647dc9435adc79888dc58431497dc338eaca86e7ca4600f4fb3332d5e29e153856599501596c76320634a3bbcf (-0x27de002e923e4f0c5a2e58707120a4e14492eeb524b81ecc3a8cf3e0b4bc52ce728f) (-0x228cd4704da90f46e9901d971ccfc2075905ca5df8a49f9c7b8cf54ed4fde51aff26) 0x90476767420ead24abf5c424df7aec91407cfc3675828940d91e99c8da460f8 0xce7f70560c078bc63553183993ecf3f5ee33c1602d264b408c35fc50bbec4eb 0x519d50603b7fa8572a4a0f45142300c49804dc9d1b4139732069245df83de57;
  TE 0xe3753c63b49d599d52138cbb5f5925551ab02b8f227cec535b419a261af172 0x73e2247d26216d42e4cde276da2a6ed9a98c0bb7fd7e3e5de7b0fc0a0aa4198 0x20554f3247c4736d8f94676940afa0164f0983d643f20ae1a8d84fd6ba6fdd3 0x4e70cf0ba93e09a8749aa65258cc7f3f2174c81a63bf71584b85a7ed9c1e9794525210eee0fde3139277a642ec8e6f95bf4618ae34ced0ae728a08c712bcb3bae930bd1044c86b9a9ebf5e75c6dd153a19eae96aeec10b1ba8cc4a4b5316d (-0x242022a3eadae58d85a3e19dc9675b5dd3b909151aebe6ba82f3599e3cc29646f875) (-0x2065b8e5ba727350f3893d4e8783763577aa79ba676ac4adad30cbbc6e941dd7e209) 0x1b84bec94e658a3db4654c519d1b8f23521803cf52847ddf405bbe8e2d9fbf 0xe051903430effc10318c5f547b8b8027c1865c79d734e1dfd9fa37304d1240 0xd1ff7e318b21b2111cb769ef229137a237cc4d2cf29dafbe1ea7c680d27f28;
  TE 0xd45579a44e15e1b330f58d135ffd25e8eda889d5f96ae96d9291fdab3c16bf1 0x2732a26a4282d57bca5c1a3468a7c38cdf2fa0648343a8b6f436baeeb71a3c0 0x995c8fef62d3a6cfc231e9f9751b942e517f29ae9cdbe69c906bc40f2a7efaf 0x2fbd0450a9edc225e3e69824406a85d13e8e098c71be3f26959899e73014b45272cd2d9388bcae3077a05c07672cb2b7511e53cd6519606ddb9abd8b30a53d49f5d49d98f586e50daf07b48c681a33d9bb2291508264d7ef26347cc7dd85 (-0x1b48878539a0df0d3939f8ee56e22e505d13dcb6d503f1c22f16e23c06799aa47b35) (-0x6c37f3e20f96319a4c6387ecff3ccfb6344db6fa02db4077585832302c88eeb67e6) 0x5ae216e0e3fd6b41af2bc149531a8ae909f08c870c7f993be2bcfe1f493bcae 0x10c70656705c35d508cd376b87b8d16795dd30ce6edbbc756a71eb47e569d3f 0x1c3f2d97035cf6471c7b8e942521d8b3f5a74f42ba1bee27df037f143d5f48e;
  TE 0xd4d784f22b884d19a09f077f26ddfb96847fb92d52aab8865a13748345de76d 0x6c10dab608191e9be1f182a71166bff027594c6e5605743728f1f6b9485ccbc 0x2a41a2949284b0f1e74e0532b952d5fd39f7c480adacc9376dd64322cfb46e7 0xf12ec0aabb030f1119407d743be19bfa5ffd5b1d8bb89b0f8ade59dbc056ac59960e6ff1ef992072ef064cf0c63a5f438cb0733b72f29b7d26d1b4e5d9076465a8c54f1d6eadf891ba9d8c57dc139a7c3b0973b4e92c1f3f4c9c6c519f9d (-0x170cafd9dbb1f9dc86992d7d0fa2860df545ea7922dc32f3cf5c9291fc80c5af4ab0) (-0x14b4cc78b0ec4b8a53fb676a8e32a73005f2bc6f0ec5cbeff25ccb6862192e5e14a3) 0x2d65fbe3631fa46144210a06b1b097bd32dfa2fce504d1799733f660ff86005 0x170ccf54d87c471830439c4b82b66ff1cf8942e6b24f655689387788f1db0e3 0x3ffaf5383876d08f99b9cbce43a7f48d71569660dab7c4ab82570a93124d757;
  TE 0x3079998dec0b888351baac876a01d4d29e65874a65a7b8c714a5d7659e835c2 0xbf2ea8e2b807b5b689e584adca455ac51d23517e6dd386b6d5eb1e1c47c4f03 0x78dcb34bb36da4c4851c770d95b9f663686497df200387cbabf94a8df6b1beb 0x29a841c15babde6c8f0812e30b52c0cfc8601f12fcc250825aef5fd3cefe3b77173a5e3b39a99efe9836302da7ca2abc1467b7230d39206bb49fa06186c9a29b0cf17f6f25413180d94f8a93d0c0349e4afd0df9d1b39d5c9c9a51d5bd8ad (-0x1c1e4efd104ce6dd1185379f3f59725ef49a994fa5ec61ff07a606103d18925fa9b7) (-0x10eeee37ed2fea6235c4164be2eefc929b5df0fb2a0b4848269a5fbf131e1ae2d600) 0x1fdbc82614a1c30b465d527f9d77cd6960d56008fe9cdf5c9a8c44db78aed3d 0x7da5e05fdf5fd8c2394e83fd69eeaf3bc6486979b53ce8550dc486f3c8ef8f6 0x1a19bdc190979b29fddef6cbb3ed4dc509e6406698a6b30f00a07b8160b854a;
  TE 0x9801ae9c7621b4057956dfaedc70de4d7a77ebcdf627370196c157c68220cd0 0x5efa55a1c38800376a452cc5a0acf0d8e234bc3604cd09e8d13afd5c310dd50 0xbf2e74b5292be0feaead4cd2f8bcb7b96c7a70b0b69f39bdcab915aedf31b10 0x10c8da6b4735f27def3d9def33583314bea67c5f708cf8c4a34b680ff1582c10acdc4af7ee55d50d65f92854fdedc32ff1d0dca2c1fceacb38bc593464349f68edb828b987f30d0ec5a528f407a45aea05952bfb3e9079ff8ab21ede952e2 (-0x23306c6738db485a4eef59b60e798be2daa4fd1e3a818c9500977f2bbb0c07229d0f) (-0x9a55c446d94cd1448d3fdc2d719895b93ed1991f0366a3ac2f7b5b7a3749dfced01) 0x26b224a831567c404ac6575d0bbf74b8d09df3e7becc2758659f69bf01ce55 0x182da12eb69ea26f2b676156098bb5c77b20d9fc17e48870ddc5c801f5d345 0x2ae294085a55b23f9a03ea8aa8ed8e4252cc21482a3c51b86c2c19137407d83;
  TE 0x7ac5ecf16a4bcd3130b75bad8fef631aec14076bcbc61aeb2181d8f8b71d07 0xc34680e3a62a92fa9b65bb59d1800e49289bd5f354e46e5125b87ce619e8b11 0x1b0fcf049cb1636be705a7b47b5b5f063f52a1bba3537e4b2a265e9b9195ede 0x1a25c19240ec3e36078f5f1f7d233b8d3ce6971eba3436d7f45016770539addca30dbc1b42c4fc8cefcc1a7e706363ff6c079e347b43787855e737b5f21fc061177224cf1a2d0eadf3a5dca7caccb01f786da2cbfff7e4ae70d38916b086a (-0x13e47ef4d2f37206ae50295ca21442a4f9b975aee51041e031eee7b5dfd7f1679125) (-0x12a36149bef6778f333080e0b2f105e629e1e2c5bce1e29ecc5310e1b460ecef6e83) 0x76e90464086437ee086c9f26efc4c6cd861770cec61b1b3df1c742f5bbda60 0xbd219b4f4e6aaaf2de7acb5176b7d6f2abba79a972333d5681c59863692a368 0x14c7d30f60fea2d3e8f7a2827c185898ee8a877e9aa43cee8c329dc737ab91;
  TE 0xa58b13d533949b61fcfb9447c88f1e4446bd1ebb3a34ff84dda5c7e98baa298 0x4ecc9e9fcfc2016b550c6f8c35ba36fe8f0aab7c16434e35118d9b386b353b8 0x66b3e65f27ff58827a6a2c265c5ec5a0d52039cd4279ad3bf5450f18df216de 0x2b6bae14f0383caa0a2abbf6c0a0f7c047e81e982c2500ac3ce8515d3bd40d7722820164424b1531c62d90dd3c87d5e839c7cbfe66d31be1d3c3c5f0854483429b3f24afe713b56e27cf29a8c251f7cd02d26b44d1e798cb546c19062b3f (-0x1aff7c1a9a888067677786de0c87d55ee744c9e719338b12c2a63f05aafa59658fce) (-0xad1366e0180d3f4e04eab552bf24a0c3d4ebd28eae347c081c42b528db2c6eceda2) 0x412bfe6a0a41af30449337e791c31e9c66c894ea43d3433bfc17b5f72107eeb 0x1f05a6c39d32f81ad3a089098e0131dec7cd4c1f73b44dc0d6e99cb77aadf24 0xf88780d344149c99d1a931c0c8bf61a5a40f0e946e50ba8a77fce3bfc5b24d;
  TE 0xe9b804c63020b04d08ab6468b3138e2b7f7c9af4f7a60760069e57891401248 0x48b45034fb47257a9ee5e7c33000d7629484aee04a7d1756073747fd466f99c 0x62986acf4a692c5e731e958c617a5648b27f0e82aa56d5e01c92dc2979329e6 0x17a019a0b36ce81594babbc90c3e2781528f2b36bff8081f1f70fbdab391be8b1f7ba29e9271fd44315096ffc0b3015baa40dd7a7b4604e753f5d2178759310c1733f7deefe2f77a43308e30d5853985dae6cf3d29b44f8261b0f9014a302 (-0x1e1245641144612fddf49358785d31bf1136e58e3098d658cf26e2ec57dc548175b8) (-0x11e12392c536b262d66930de20febe0051d479a110de9e6566b4fdb0b7facb380034) 0x830308703bde176aae91da88d589d88e0b437188af82dc37107ddb4e5685ca2 0x28c1315f0b75fe6ee9f315c340de8c2cfebe49753b982939381ec7d12e8fed4 0x160c0c1d5ca74ff279fa94a409de26d8296d66ee3db7f7d3168867a4daa7581;
  TE 0xe928c6c077e47f0774e14fdf00f0bc1fe726fb14f5f24e2de66d946705a6f38 0x95bf2ed6fbf271f649791c25f66a5a0d704c006a60eb9005c27a9b39131d81e 0x88556bd4e77de14aa319c5dc52beb834abd906e1e36f0498b2bc9326f5ece25 0x1ec66bc4e575eb04e5ecffd25596ae809ec00ad20d0d043590c13f93dae61b94b7d074d81c0f7c30e59b812db80e5e51f0bd32aecf8cabbe12f1e985cf55fc3573d56850af2444499c05dbdcd6bf7bf054ed984aa8010f589f5db62381587 (-0x26764aca732d72a029997c66c4636774ce4edf276268cba41e47e20994470816a014) (-0x11a7bc8ecf6604ab75120a3d19657172805b5ba227f952b88f7ed39513c305d8955e) 0x205d8525117af39e11ad48f1ed56461ddabaa03f2a22c3863b697506ece77fb 0x14c9626e040e802fc8bcc9126491593c8aaf64f84ee1f1ef443ff21c4729a45 0x86335cedf6a01a09fb11b8b663a569a8fd75c87bd9e65584edcaf0f31e9700;
  TE 0xd2702e521671c1d85a5168a914b4872344921c63119bdb7faeb010ecb662760 0xbfc020b496f761c833744f771da782b298fce8206ec26d5c69877f677be7721 0x4998ca4c42b6e868c8d38567b1fba5c0aa02c7b86b3ae2a538a76af7ae9c066 0x3f3c14ee4e6161560c64a33af9269ed127e164878d3ad8d3da33d4f1fe73249bcb6234eaf7f599a16d5590d8525dc74feaa542f245c7a9e91562941f41e882a173d57a31201b651ba65da0bbb12480fb62e93d953b79e1fcb6f7083c47172 (-0x260893bc0216ccf4946f28385b4792156f272255d22f3f98e1d509d67ca7cc52ffba) (-0x1a0d48ac2227adb81fa8fcf3a8a5835abf6d49f3a37f877f0108f4ae37a65ba19579) 0x125b30213b8f0a5ce3938d2637dc2b89c66378374a95c8aa08908213dc63dd3 0x10b9e1e2515258b2ad2b4ace69f7360b8871e21720e2541ce1c91bd935ee81c 0x1d3b36dbd90f912f51104a8d83a9cea6d0715f72dd00419b8d5428bccb36108;
  TE 0x90e198c2afbaf4e5ec311bf1a3edc046d0039ef871e7a49349924b1646ee809 0x56dd412e226277726e18f12fe7a4fde6d84d5d2906869d09076dfcf54a090c9 0xb40dbbc5dc6ddd1a1d9980e0a6c5355383c7b213891312cac21b08371fac125 0x4914cfbd253488f2d869bbfa51aff6f992d218a0e8ac83a667300780c36f42f8c0451ee368a8d05464256562392fb7f6d12e9377531230dd6ea14b49850a77c4603a33c8f73a5367316540fa45258da18180a9403fcb22f0671dab21d4507 (-0x2d5f3b4f26cca0d2c5a071049a63b63d2271575fde1f547e537ce9d8ab1540ba0c12) (-0x1a2cffcce7c6383d92eb5e701dbd8c81a3fe9315c519487ce53c5d98ee4c42113b14) 0x5069c86d93c71ef1f9e7b182f2966da8a7044cd0dc19d0574bce2ea247ec215 0x30364f5489651de499f4909b1165fb4e16096cc56d407f5f6407dbb57f6ac01 0x279d220c66cfea18672ceb086c464b0cd6e7485a72ab2bb18eceace0210c7f8;
  TE 0xd8b5f0d904f52fbaf1ad998d3541a9d1eee0b8fc37fa29c9bae7657cb7423b3 0xfe7340cecf72ad8b616640be7ec751f67165e04695ffb521a25808614158f6c 0x9dec15eb8507879316fe9525dca612521539793d32ce4faee4e4f2a83a23c96 0x16caf7b810b11e38c426e284a91c85a396e352c4ca387ed4d322f3bc210906f816c98f284732693b842c37be4ec9209ce2e0d24272fd16f6fc38a48efec47af67ff1c468abdd55b4ede71517896c06a6175fa3a598d6d2747791a830a4715 (-0x229f6bd9dab058a51645b3e0a84d903fae9d9b5c6df39c2859fa2c68836549752359) (-0xf7c3c8101f2a2d230c4c531d813011577979856cde1729d266aa9dec7834b87334) 0x461cc3ae5f4e7ce55627c662aa383b0c68efdd6ab4e46ab7b923e70a205127a 0x52527c81e461c3ed9f0926fe090b38a1fa9b2a92dc33b89aec5cd7c872948c0 0xe78017b77cd3e4b39e5059e91acdaab4fdf59b95715b51e1e4e0ba4dd9202ac;
  TE 0xd41a8cb6c15704ec268d414cafab1e094bf565ae4813d6169a7fe4ee856c179 0xc2238b1859aab355fa1e497c480fa9777b60cd50741c90abf001da9d7304e46 0xd3695de5383b7440f3693752fe7c1ac97bfdfab38913a1dfe6c7f62f64967ea 0x63de52d3f746c085e0d51b9317c50b976443eab04ebf68160a670be3d89ae80f6ec11579a8f9ca880b627c8ef144cc085ac3f93d9b9e02fb6749224501179cc0a9a2d15e2749fd2efdafa94e4536161013fb51ad7b6759b43d40a7b2ed37a (-0x3c91371fd166548fb1e234ed52e808c1fc1291a7650fda0ffce1b0a3e8a3c4484f92) (-0x134797e898318847e69e2dc963699816b853282eb2f5f09180d1003d490dea929eeb) 0x7b8a3d613c33bfce56ce66803ba835c1ab418fc6dc915aac5d4031dcf34feeb 0x71138b59bfd414460813e6638e817daf92d763da8ff657841f387d619d352d7 0x75e3f7d54ba57f34746c196270b4424c662bf62982af5b82048dcb660fca04;
  TE 0xade54992c11a03892b7ad0cec7efa89672bef4c815cbbfaf60b1f1cbe33a9ab 0xf1af42f0adf2241d94f37c51d02de15201a9e121662d31c3cb9c5d77b1e6d11 0xe4ab39d763dc11d4382904446822b44f0bb46637d3b307ed547ffbf44e61397 0x4a93c0b2752f6ebe4e88484f30f905590ef9279655f72c7d451e2e92a0a7b4727961adedaacb4b1a009b334c489fc59c72a70cf9dad8c301e850bb921e209d41cd8724a0a7d09fc1c722f5e13a51583aca5c2baa44176265ff69da0bff98f (-0x3426d269cafb93075e63f3eb96b5c322b8dae5474087a3438e73f96b02b9268e669c) (-0x7dc1adee2ddee1f232c349326a290a17b7aa7ef0acfa1a4c7d4c2fdfc5c4e9387f8) 0x238a2ec5749e816e0bd6a6104a91f484552838cd2a367a85bb93f2752fb1709 0x3164e2e98e32e75a71b5de8f736f219bbb2b2aa1ca16386a8395d5ffecc1b81 0x135770a9bdfb8267efb4b22e496aadcfe56208ae30720608ada6c9c84b20cf4;
  TE 0xccb9f8c0797c3fc0280b439ff3fc65c1a439bf10c969fb489e691247ed03be7 0x2e2afad0fbce18c4ab912cb62dda420e637ca6ff4239e44f239d103f53fdf58 0x97c5249d0344a6338d8247adcc3397a9aeb162ef980586e944fed3234b30c59 0x4c1e01984adc1df2097935567892dfaf851279149ab317516fb51be3e682e670de664f6f4f0b532d5caf80071c76d941ca7fdad72f3b12c97dc97b968502f28a714223703b874ddd06bc564754fb841f9daab6cca10f17ea2f9e53f5d5624 (-0x31d5b60c7c9fa32881482219610c6ab54095fbdde7fb2d6b2ca0bd16943e1830f807) (-0x1e56c0fcdefefa29f3e9e3e35cbe7dcc5f9703130884d034a377dd496f36be29fc1e) 0x4a1633604c845aafe6d369dbba5280dece2c0366347ebe07d719f0201ff79f0 0x10b51209e4bcc5b98598373d8f5bb7b9c83ce77a7f8e1cd8e9557790c5abcff 0x2b237aab27a3465bff5479d1e0fceb521dd374fe78c94b1a6e00cd17abd397b;
  TE 0xa4e2bc66003f56a974da584bb7b1f75153de1f2fa95396ada02adcfd1db0122 0x6b7d4fb94aaaff44e015205f2e6a2681d275c9324a9fe764dfced2ba7886d58 0xa1ceecf44447e4584c520eecd84121c4bad5945d11106f7e8f55b65fd39356a 0x111e4500d8fcd335a7b3c4312fbe0c798eb45db5ba99f604b212e0c7d3813217a6482ac841369ae6f1a0324a060e7c39a852e77ac3c43360f90adf2a1e7346169a4e3e43522643c01cfce029ad6c1c382aaa6340d111ac95b7d4fdc1c2de6 (-0x1f7cdd1fc2b6c280c544930ca119a952d8db219bd6a8939494d0b26d5d984836d6a5) (-0xe72ebccfb5bd1d0820562a671a802221de6ffaf2e59cc483c2d04f3a5ce6576e879) 0x5705b52478045abb70fe170c4b721f3d26240947fc5340dfca2aecc01a12b7e 0x38bae858216f9f25fe76cd5feca824122749c40d381fbc8fe9f15a1842f4ddb 0xb12a9e3bc169271b96f53ef784a2fa4c345f9598d84055c54b8a886ce9f6f2;
  TE 0xe9f9230d409ceaa76ad421b4090f77d530a3ec304dbde93432d8015b6edd5a0 0xb0e28df81bd521ef9592c2d891734918630166717708a189bf20a64281cc6c0 0x222e0ccecb28aaa8280fae96c365118cd687b2537bfdcdf495fa3e2d3c6c903 0x201964cacf3855fb57ad15857330482ac191c60895c1858407d24f5202d743409a032cc3612cf7192d91f0b80321b710262e384e8a1c9476a9fe1ea5686e3e35bfe51c6ee683acbfd2b5d05ae6cd508170dea8692c09ba451cd6177c0d161 (-0x19a80f34d34f3ee1a9b3dbeb8b2cff18f7a540aefd8d39bc5b5017921aebf39e8b8a) (-0x146337a14b53bc0613fcdc0ecfe79432c03bbcf00aae09e0a40fb069792f78dd90f6) 0xe8c1e18f9aea8de8b6063b933037d61e0c7bbf087a0aa7e84dc685db0869e70 0xaff73e567257e139cf04da8158ae11865aca1ee2f0d2e651b81607600b60358 0x8018f786bc1003e5b87913d6b3dca835e3ab9cc9bc464819b5625ece23869ae;
  TE 0xf1fff1b37e96f1c190086eb92720a5021c316a2b990a7cdc3a52b5adfd1326d 0x4f2feda85cf31dbd1d6d08b934e27e94a222b83b00a6d8f400d8bcac21426fa 0x99949c35e4586642655278e284cd30cdcc0f1d64761bb46f28516cd6ce2c32f 0x4af48cc5b1563df332abe3b7da86cc4b9a8f5d7c5e5e8a9ea07f01a79dd43a4b40ccd65169b2f53b0dec95c1d32a989b16f3f09373d365a329bd550d21056968a7eea28fa5ea7b0bad5e850bb97a8219ad59cc6402339cae142fae3cd1ff5 (-0x32db05292495c459fefe60241f77a991da178b7591a99b5f8aa983a116d3e95b022f) (-0x1cfa6e825c98b8f28cb9a5c26acbd91afce043f582670b00974769eb1790ff8d0c7e) 0x99dbf7d71a58e04627d6ea8502d5a96c2b863b41dd63f020cad51756fbdfa73 0x32588a10809ad952c528fc8f6eeb51a9445d9ac290d99e8d31ddb133f8239d5 0x163842c911ffcaf0988bd7d2231136eb9e339a999837d09b87e99359cf2de83;
  TE 0xdec95d11b6c87c2189e17ad7dc9bd803036260aa595ff946f1c3aa130bb6ebd 0xd9f81607bcded70d3517df4c00ed17d65cdd5a525563adc5a2271a93525f73a 0x466333ad1af0577561f81213a91fc8fdb2898dc3eebbbd98391519b9b2fb1e4 0x22b4f42df88e48ba2a439e595ddfb59f425eee63528a4cf5405e9905b6b7fc086940fb6f28f6c34b22c77a7cab5a4348184d5728bcc2fd795523bce1c302081c7be679effe2ee92bcfa813f12fa69c0a5563cf88cc16472c3ba0eddaf1982 (-0x20161d9cab90709e8d6cfb1a02fffaf68801ebe2b9b82f825a69190bf1ccdbde181a) (-0x15493d206f977496267d85f70ac25b1f6b1ec917c948b223dfb5ce51286fb729959b) 0x80ca55abacb7a6ab475c57ea862bef87f1e10e7cfeb47609d65e98897dadc08 0x7e01641ba4525881fe9490322653397b1efdaf2fa459ecb9b7dc5657761eb78 0x8daee8bf64f7e5ce166ab226d01ded159850f6d2a97278284e5239b576a3d67;
  TE 0xa7d208f0eb91fa6b2e135795632cb06bf35c2339748b29a256bf782bcce4ebb 0x5e67c85cf6cc52607c45e9c4ffc600748d65afb90e9618cf0457f2852e3b783 0x4f49e07f1e61c96d50aa8aa2722e28032ce08de1213494250026479931afa22 0x57f2d92ef6b80d4fae4597c05677d5d90cca547e2914896c82ac60903b01b7d15de5c710b48de67714f6cb9dfb0459800418ef154a8b3fdc41bd72a52fde9efcfdba21b9da2cb2657cc9fbfe88aed95e3a17f73ac152240dabed9ae69022c (-0x2ab73005d55b7bec88c491ea8ffc409a8a8af51ecbf876b1919969705275209f55d4) (-0x210bb3d0d61f9e1c0bf685ecdbd8635154b5113bb19765ecde8bcc1416ee8a9dc536) 0x60664688beff12c027f3a493edf2faef6164a8133cf62c98d39b03535fa695f 0x363a788ca5b04305ae8af3aaf2f3dc1802c86789edcff90b635b954baadbd43 0x507ff4924f516b560de674721c9bf7eb76cebfd760acdca4f5a356f16c79360;
  TE 0x1211ea28fb16d5bbae9fe69a70403cb5601c1af42e2b8fd4faa09262b5a8df0 0x839e49e6d7ff17bae0f2818f84eb6ab383aae7c788316a27078b57e33824804 0x2bb54ec857ba6c50597fb50c8a827713ec54627c99acb6fd8f460fc1d66fc95 0x1cb197a4bd6be5d8f19eaee93682bb8b45d0150892acd519f83604eebfa725495a42325985781826eeda1bb4d4ced8b43396b1ed4958dbb4d0e73a838473b36708cdf54bdd74487cf026b206ec46214ae05e0c6ece9803aaa703ce28049da (-0x153ced97143f65235e435ba623800bb759b9d678f4dadb72aa79649045f31aa241d8) (-0x13df181aae36322b7ec2c526de14dae3230a0573fdf8d36641ab862806d150710dc4) 0xf6e41ec4bf8e40c805545102d1ba8d8b79a0bd812ae7931d6754bac3e28852 0x7064edf081bc063fae1ffb46c92f04853062c4ff75936e301832e23fe073e8b 0x7059421057e1273522718b5884ddc5f8ab3354eeb8f78dc106d8d1883050008;
  TE 0x92e09b94789cf3b4b32c296dacc99048a89ac3e52528ab792b6966f9d2b824e 0x2c283f9f089f0509260f87f36a311c96d41256aedcfb82abe70339c38ee2129 0xf7633c6bb3dc54d6738cce96a8dfad893d168ff061f1d3f5d9e30cb59ad60e0 0x44eb44fb90dfe857504679002f0598df68d61aec6526c21950223b2433b15261d230eab6b9d7309d99abf7160f44fafb39b78cc7851d0af1f3aea59fb8a6661467de1ab921099e67a5fe878b2da7ab6a55bf5dc15f1d5315a1c75697dae0 (-0x1ed1b0e004af05bfe10dcfcc24716d7a35ad4d3e421e21ba4cc723dfcf8a0af6a516) (-0x5efc2bd2e1f2157cdb58081483ce864674cf3c7e5340d9e74c4c0de980d63b441af) 0x25f59d101b75d278ff662ea4ae19325c4a69b2c89ecb884f74e74f5fa126257 0xb6980f8f634d3a9f002a07a2103bcc13787671dc237bddb316ef25cc6dbfab 0x181e95f2e04e3dd56fe22c1e632aa7f7ba17553b0fc9350c752c0e6fdafedf9;
  TE 0x40105365a03c25d95c76e81bd2ef932708d0af8df8229759104155d06a494e2 0x38ac64536a5c287c68cad9fdb826d6f7db0d9b9726b40302b0a739c3efbd360 0x4fdee0b405b6998432e80e9e06a71e6fff514efdce64554e42829af0f4c7700 0xbbf0eb8feb08e61198cdad1e94cefe724a9787802b2e6d2b95bd1161792247a9e8e35d169d4e2f6e5062b50ecbf3f7eddf07d6ce8862ea1568245cf7c7036f2190d7db2e0fd84ef06757bcbf6bec5e85c41f56d5fd7029647c30cd6cf85a (-0x1108eba2c84638a49409d9219127dfbcc852f42233ef9e0193ea215e9996d7422dab) (-0xee487c1b66b10fec14f488cb12e181c899d9fd58a5f075040bebde8fe3a14336c6b) 0x3341e7317026ab921a333d47366e075e87b9d7f7f4baaa1fed4ecc12bfbf267 0x2d582aa15e980c140140c169a4709faff634aa62fd06403aaf9bdb1a4e7bff5 0xb4b531910054afecc53d2e202f720f3188a546a4cd840ba30cab8f10e9fbc6;
  TE 0xc726415c7924ae7a17f8dc226fe5f72b3fcf72fe1c4e1e5d2cdf740981348cf 0x47ab82c1c7e3306d3176caac3025e3a1ff8f10946e6154b14c232d592d1b99e 0x4e83f5eb7954be4f12a955147c30823371b2bc1113305d5f2ecec0afdff2f4e 0x6935c154a574884a658a623288f268d81e78e1a223e54a484245bbf32516045cace63fd7c63893d6048b27517330a81ee413e0441b4eeb6199dc691a9b685f1ffe91eec09ee9b9271443e2375d225a8f9862b6d8da1990f357c9438f1d7a (-0x1145adb6b4e0f399ff22f023623566812a2f92f49c3318639e1063536130a289cc5f) (-0x770b34886e71c7d7e69dad4bdb0577f00e7b404debda47ad6a364a5d44150c1aab8) 0x1408f495eca3dd51da955e879ae777ec90a83b9ce6ebcb81aca7d779c7a637d 0x735cf666bc0afbf010e23da6de2461f385e532071a962c8bcf20f1dff9131a 0x3b8968e420ec2155d33679b9e11387c2edd3624f81aeb7b8388bbe72f6dd5e3;
  TE 0x8742c2164d88b8e8223823e7f71995d1196cbc7a2dccdcf263e3645e3c516 0x373f7e20b789c4704646080a8e77901ff6465a25b70e7bc435c82d2b1ce89c4 0x26ac4f57cb5d1c06ec89cf90b8334c2b62b10365dcb86fcf5984322a6435d1e 0x19d99cef6df0873cc6200cef4d6555a7f5ac161f3c0f37a885a98b50d6d8a8017f6c2c0fb761a37bb386763188fc99093e31067ced955bd2469921316c267d0ca832df4dba528635f545a0216877c1e3ae7162bb9cefba68926fab58df890 (-0x14f527184c85ff047efe5b2bca27b36e895df4e0c4029d24c36e578978a3f2f57a23) (-0x16ea3bd9c18db300ae6b0e1d86ff0c40c3ab3a2eb0251e8a09c379cf1de25aaad17b) 0x354b1702a358e564d37c938b914aed95a03ad672062937104c62c97ef4ee1 0x15c498a2a42c546daa81803ea615bbd2142ed2f80a4909374348c08113e4657 0x2c5123127ef9a469b01733c6fe0c20d21b6c1c340f9f77027e949ff6a012cea;
  TE 0xcc725648dc753aad46d2867c8869718105fd53c29b21a68993915beb6c925a7 0xffdca07819ad3016e5c262e7964e1c9ed69b5e4a9d70d4fc917ebd683f1491d 0xaf395d817fc81f106637cf746866fa54a0f96741bfbc83fe64dd473a6e713ec 0xd88c39f2ee74e7215fdcdf9b301f553824bdf7d1ed380977d6f878bf1d9b492af629ff261e24c60fd08e3594ea72f724380c1275ae36e8eff3ccdcb2c30abc78a1582af8f33cb49a40bf6ca1eab2fc10a7d83a7d4f801d3be407d547ec (-0x161cf3dee572a9038588097175affc097de4a57269da6a9cd6a21b770bbcefb7cae7) 0x111c6ba8d64561bb2b04e3b16b81e236bbbdd5390cc708ee99dd91647987ee35aa7b 0x6de89fd767f66e2b6c5d23d1a31dad828dd9aa9ef6da1b90369b1f2a664c139 0x898c8de4cded695e52e46bfaf8202fded7e587fc8a389e52691658de5811dc2 0x1dc954f4847c06598c6c8233cc99ecb7eee18a8887f19460fc5ade8a9f0855b;
  TE 0xe5779f2b84337514dde33d3e33fccc1a4e58e4ceb7ef3c996837577198a8385 0x193a52157232ea7f911617ca4e167bfd6dcd9ba0561c403e380d0fa5239e6de 0x52599b5c8655d565e90c53cf930dc71b71514d23dead9c16a57445c167c2205 0x5ebd48a71cf9b07746be6e9be217a8a5c2010b3ab7195bf35d73db78f4b1208275f0ee398515cb273d8cf0ff742fce33b3d9d4406354bc0af525be2422fe3196e03d97af217ab0e5c3628e35a1b81dfa057212aac36e43eb05af93bdb3ef8 (-0x2f9efcf6b86ef8fd77a659ebece86597641806f57d3542a7cb245c1201bc5bffe981) (-0x248ddea88fc969847f99e9d9b9f1bad539e3b4f9e2a96da66e17645d0b89bc353db0) 0x2aeb14654764200f1bb753c8bfb7071f479bdb0dd8c87735f0b74da9b0e4ff5 0x4b7eda5562ec38d7903c76e7fc4e506f3f0be9cdfb5fde0117dca492d93073 0xaab6d5baf39c558eb9e55cc85934b61d9c526cbf2aa4599969988e3feeee63;
  TE 0xb9b27cf77d27bbfe4e1e6dce0af5bec5663d40099ad928851a552b334578439 0x85ef6ed3cac9b55687e31532bd3ef85e8dd5479b010c85787b5b180cd43ef57 0x345b5852e621133502bb56e634e7c4f48503827d3875b2022015e938380cf1 0xa7c04b83af22823de0983069e73d2925dcf8fdb87d4aee16e5822758870ea1adf3b46e69a7202b4103234acba3636e96e441187bf6ddbf7e14b290a2db873e640f8b12f1bd0ae8aa68175e2aebb89322df840aebbb5b21078b041f8888cd (-0x1300dca5dc4a7b4773d4009e2454cf86bf34a0f534e56507374590fef5fa23a0c6da) (-0x1745edaee63c6ed4cf8cee57d6208764ab5f1aa5da93c19a379c8eb35a0403b9d116) 0x4508061c7e87c8166c739ea9f059cb941bf7f6eca330a9e02fd42f5ad05dc17 0x31ca0ee129c9c4c634914c18396894cdefc1cf1b951ea893f20b06b604f0891 0x28b57e0d4a02577ad2e4359b7bde6ba6df3a821119e87b4387b9b4889aefb0a;
  TE 0xafb55f59a543d9e8fd670e36f3ed08d6bcbaf2ecda3528e4e7b92ba55844a0b 0x98aab47f9e891504b9a46b8adce0133287fef55c1eeaf11da9845d50b3bd1be 0x5d856c846e34cb3bff352595325702746354998af44df9f8dd810b876f5867d 0x2d0b7e01217f9b0520dac970aa9a4f57f9a5e9434d2ce652ceba004e84ea6cc688216a0db6ff170930f5bad9e06c05401f9459b5baf21f72df4e9384f69743f2c7bb75f1bfd4d7d69e3392ce977b9963ab55872704fd70d1afb21ca7f9d3c (-0x219b070dbb7d24a8f897632f2b96581b595f150337f0cf76864ac0455cf3651c3adb) (-0x145d197fb63a7b43e2bc715fc76bb3ca7716804dca3fe9257f00adfa84f1b0d535d8) 0x7f16e7d17406f518bb1fc286c2caabc7888743d03fd6b2734e45a35d543eafc 0x6e6c6a51796e5f3673aeb924a250e9e44e4adb40a21f4758d369ea130c6cb6f 0x4c19ad661b47a58c741d59282e2d90d4079b57b4202b7eb43071d4d96885836
].
