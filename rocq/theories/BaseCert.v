(** GENERATED by tools/gen_tables.py: affine coordinates of multiples of the base point.  These are
    untrusted hints: BasePoint.v checks each of them against the addition law. *)
From Coq Require Import List ZArith.
Import ListNotations.
Open Scope Z_scope.

Definition Bx_z : Z := 15112221349535400772501151409588531511454012693041857206046113283949847762202.
Definition By_z : Z := 46316835694926478169428394003475163141307993866256225615783033603165251855960.
Definition Fd_z : Z := 37095705934669439343138083508754565189542113879843219016388785533085940283555.
(** the double-and-add walk to the group order (true: add the base point; false: double) *)
Definition order_walk : list (bool * (Z * Z)) := [
(false, (0x36ab384c9f5a046c3d043b7d1833e7ac080d8e4515d7a45f83c5a14e2843ce0e, 0x2260cdf3092329c21da25ee8c9a21f5697390f51643851560e5f46ae6af8a3c9));
(false, (0x203da8db56cff1468325d4b87a3520f91a739ec193ce1547493aa657c4c9f870, 0x47d0e827cb1595e1470eb88580d5716c4cf22832ea2f0ff0df38ab61ca32112f));
(false, (0x6742e15f97d771b642862d5cf84ecf93eb3ac67b80698b993b87fdbc08a584c8, 0x21d30600c9e573796ead6f09668af38f81783cfc621ee4931e2f5ba9fc37b9b4));
(false, (0x23a4860627e53aeeb8e22b1508249c9109578d33e7bf237459b2596d6c28f9f8, 0x709696f2827fc3729f980f2e3aad6e78b06a11ff8e079c27d87aab37c16727eb));
(false, (0x39cf6c6917421af98582561d0b39567de6033190f97852fc4fdd40f6977e4f26, 0x4434a90ee12cce6b7ade93ecc0f88b78b41205e74c8c4038f92d394f3a06d269));
(false, (0x5fa64200bf829139cf290f9871d79a8b8e846fd6ad9d678f1517a0fb03ca40b, 0x3d199eeaf926002872f486796fa8aa4c99f1125e6e0d196afbd695af17da0926));
(false, (0x379dbeb1a97b5f082402eabf1ad28bb78a837aa426237a405da2495bf0cfdd87, 0x28eb9fe001ce99d063f7995348559bfc233261c134094521fda0e7ee084b86fc));
(false, (0x5e7e07ed4e1decbfe6e9cbc126905449d4b578fbb561576d20b8bcdd0cc2a556, 0xf55755c51f102796bf5ebaa81d3260e7d1b3d9ac127d9a80e142031566cf6c7));
(false, (0x2eecbf81b3d084733331f9eefa70d42621effd9b303961d25409333c82cd340a, 0x54d2dc2da137827c4132d9b740a119b6484d4d4849e6e074b89cf764008b93e8));
(false, (0x6b113a52f9f3fd0590ac7cb6c8cbb37abcf147c44b2ae11d9151c7d55b4a2b68, 0x1aeb017159697e792eb8da1805519c06296595f4f57996c590954359f327c13d));
(false, (0x3c1ae7527612d38bb541f511fcc6283d8482afe93115b345ecd2bcfbbd1317f7, 0x51c91c3f9d7e57eb786116c8545f90fa67f5e8b62c32ac4512015a20711364e));
(false, (0x7d13c0248b891b47eb524f2692008e2f97b199bac426cb5902b9003a29ded6ea, 0x59a976ab2c01a81a91f1a56c75ccc77a9e1e9e878e9fe9c3952080a6805b20d5));
(false, (0x17d5a9ff7f338d8ee53c26531f9a5d4ad2718234b5d46a1435aa161031b1c9de, 0x73022287d3b73f6c43c3f9071cf0a87aac83dabd44efad1de010d564a4f6af89));
(false, (0x7a8bc68bf5f3ed3bed79c11bf2d6b20cb84442dfe4ae185b0c2dabc38e74b8a, 0x7249d7c47afd427018b32d20a2a81307bddc3e039574c80329aa786a22288901));
(false, (0x5b4fd9f4a9a79b1f34a4c426c1a467d36560338b1a5457e83254935c2b32ff02, 0x40ebd1230468fbf85a49aa47278ec1375a3cf9c2ecc5bbdf685b265433b08d46));
(false, (0x5de7faa2ee4e70132f541f79ca07cd54a39fe1347a6844d19e9d678a8411a565, 0x2c9f23641e1c2e0aab8ea9926b432d92c0e8bc08901d6ff6df85e4cef854ec36));
(false, (0x74e337a01c13b537323663602811d1d532d8747e81489415271411b172d04f27, 0x8648f02b3a4daf96ecffabdbaf3599fb2ee85dae253b2c21ce66796114e25f1));
(false, (0x6a6fbd51efa6a855e82cb0142325ba473fd7554aba208a400737475464f29434, 0x16f5f8529f55fc2b7cf811161d7870ade1d1617e52c3c4f579ea06b27616d671));
(false, (0x243eb188de73a5549b32c39d2ef1b29623709a9ead4c0e240314e0c5f69a9634, 0x3779298951f452d801eb7a0b7eb224cca2dbef041081cfa582afb25b1f4ce2f6));
(false, (0x6b349eebfed4dad4a805b63a6ed2231a565cda752d9477ff427dd9a8c9ab5ed, 0x7a09289ff3e1f9aab68aa374c48df65f550c2323607b97744dee990608b64f8));
(false, (0x482a4cdf57d9eadaab1c92b8edd4d15f66a39c16b2ebaaf9ec314ac0199c4f7d, 0x7391de4381c2f7a80b3c5fc6145192983f115fa525e4fd6abd513b116e4eb04b));
(false, (0x3bad86defe0d244dcc4b246c137dcc68bf6b733d1fff688f33431f2a339f8f3c, 0x2de3cdf2fa86ba8c2b899f9fc04b8d5384145c3f68ea9b6ee05373dc01815179));
(false, (0x45afc85dc571ed1bd5e8115a9622d44627cf19fc4a8626e7b754b005cb75be54, 0x6c0c8abfa60bfc771e39a18f57b8142f7adbcf220b81ee2339809e4957777b40));
(false, (0xaf367956af630266b1cc760154256ed79da960dddca9d72a1e8cf27d8d43a77, 0x21108d900134d3b3708dd28ace96b0b23dda9100e4b6a62a8131bd2f2ba408c5));
(false, (0x2b760154fc5ceb5a64141345f55b1b57e5b0b1d6c5a07dea8ddf074fbae70d33, 0x7dc81af96fed42e0373411203fa2ced7629fb2eb6a2054e24afe3696afc20c02));
(false, (0x67dbc33418bbcd3878489398639484b6d6fa42f875b8c5af23bc92c69c5bdb6b, 0x38436fdf8589a33059fc92e7ca7aa2250cc9ea48391b1e517c6fb056093af396));
(false, (0x29ea44a50a4b47b8b3dffa01dc5f2271d5439ba8a82a6ec0c454e9bd19448479, 0x6c775ac8ab2eda8cbbdb4bd1196ab24630ac6c1f97389de19e9d5f63af509005));
(false, (0x1e45a60140a3b2dee9b8dc6ff307154a1b410bcd38e0e38fb10b2f6da1afbe2b, 0xe730da473dffd60d2f3241a85e68acb47d26e5043ad047d893f072c8dda0a76));
(false, (0x61708161cb4660ff22c3c1eaafb1414244579864b07e73fb9bcd90aabec9935d, 0x38d6936d12e8157c0621bd2d8fdf95a1f84987ee724e0c98f5c4cd21feb9820d));
(false, (0x48f451397792915909604c632c838021641749a67fb8e91301427defd951f791, 0x315385d3bd5a22b69068de89e52a3126525be7da886d693e99ff2f088322d560));
(false, (0x7956a04df862178ee4c705ffbd30f9dcbccdfc7abe362f2c1da24b3cf9dcced8, 0x5eeac17f2e772f551e761978b395b6ddea37a16aa33cff34a30a8453baf6e782));
(false, (0x4d1e116d136158c5ddabd4276832800f2c081c1072de6f2d931797a46abc0cbb, 0x6d415be49d4e35b65cc51354b5008f8c43e84b7b5e8a4b84f44e1efb10c9b91a));
(false, (0x4b5bae5a77a867ddbee3944524f8e2ec8c2a6172c14bd432cd42148248127d15, 0x739476e0b38471219875a4580e6742ecb6aecba57b8c0fa0d923b8de209a77cb));
(false, (0x33bfa90cc1b9df13e106ffcf6ca898d06b22d51df337243bf85b3f232869fcdf, 0x53b120db6327cae59fa5fff109017d2df4acef01d2f10981439d824fb2da81d9));
(false, (0x444929347c2ded029bc19558b0f69a4492017a9c35b370711e08222bc0b9efc6, 0x77785ec5cbbdabd645a3251e7da57c8ffc39158c0d7b25a4211c2aff2e1d6245));
(false, (0x2b6b892ae94b454b2c2d92bb947fc4d506d173d281779c2c153c001ded42d3d0, 0x7f1cf64e0e180fc4d6e12c1b5c5285f376e979616a52c94a0dea4d48c5880cd2));
(false, (0x1b9175b7fc19a618d5848c5761c2b760529e3eaaac087b51112b1fcb422e04b4, 0x1730a59fff4717e258cc853dece7c5f70ecb52cc35320a53cc3838c844ca68e8));
(false, (0x1371cf67fe47f8ef91246ae0485874d601e31984d854224569ac29e56a6ee87, 0x71cad7d8350661ce798e332a98ee5b62f8431fd9ac5a4a48856ce9c4c5b64c73));
(false, (0x63bd671eca1e6accd0f980845b163ca4e927d2a74d198e78cccd8fcaa6aed372, 0x460cc32f5d27a15f4294faa20a99112392cdbdc8515e9caa1ff4887d22a6e7b));
(false, (0xf6c3a96e0032a9394337a02ffb2c83ba70efb8f566feab530fc90fa3b4710e5, 0x3d4e97e286378675038a4b58e84224ee515e1d6697ac79389f78479be167635a));
(false, (0x3b13c71c2a90bd24c51df6bd138c5d16208a9ceaaa8eb34a69469fade6abb440, 0x14890a7ab24817b2bba826792e8fd342a6f705af800252616435be180d16dc54));
(false, (0x184b48cb455000542259174da9a6eb83a928b2835182278abb6ec091e388a820, 0x3ee0e07a03dc33a9dd60c2682380ef736679a5e383faf453fe324dba26e77c33));
(false, (0x5a04ae1195edf508262196e9d23c259c937f81769b2258542b78e3c0fb135c34, 0x676667092118acccece87e75f0a6825c5952f92dd499943efe831f9712c5e8b9));
(false, (0x52ee53b981dfbc41ddaa5ddc2754c4175f4811aa45f8e2b19a425657c238a83e, 0x7eb0a1be3400dec87b388cad51613957643cdf0595b891cc6f925fb36da7f1c3));
(false, (0x501fe138924e05cc1a05129d241e6b5e9d46cd8b0bed38eb42ee20678a1d2425, 0x2f8022ecede0189c215882ca856dae0f7b4daf6675181a558ebd11e6911cee4e));
(false, (0x2d8294fd94996032b73b4f09a0ff645ce8db39db5463f0fc57156a1d390a3b68, 0x3a8a6faa67c6dd905a4fdeb95ac127c9fde3ac017c847ceadb2c55f1445af624));
(false, (0x56857d02674276af0099d63b04a39544a23b841cb2ef18688ba9500361e4da1d, 0xb543a6720e318d2647915bcd619efcdedcf7fed0657be45d27db284290e72ce));
(false, (0x52a837bc7a7bc9459bcc2ecf80f74d9ed99def0342e18cfbe8e799fbc504fd52, 0x50d6460185d8924e5485f23f36a98c86053514d163547adab6fe91478a411196));
(false, (0x3f30ee695b236bc74620afb10469324b45c8201a45cbd6954239e64086f3cd53, 0x414231531dd52e5555640faeae608c4a0c205a04f56d187ba80855dbc0478370));
(false, (0xebc38c54fd6aa12dcc60ca5c72ed865b7c35a6bfcf98778c235307d306de6e4, 0x4b3a1d9f2ef40fdb3e31ddd56a08526dbda15a4f58d78162c7bf23886763ce2));
(false, (0x3b75696730dc8d8cfb7ddb23241cc7ce78a13e6a377db5da527a1058e60e49db, 0x34d031744cd2d9cfef9f9ea654000016fb3e8b4a8c44198760f46016166deaa9));
(false, (0x6b2bd5d00fab38ceca21a27d6aaec82626b14b555d859527718f8ca404eba4, 0x727340c27a15f6ab3d80547f0827c56ab1ba33bc30d1ef3909ea9a3af10c67e5));
(false, (0x1f4e8938dcf3a6d5907d88572bfb36a8191aa9d05bae8f68d3f120ea165b2bd8, 0x5a8b0c6f649f8e191aeeca653774a6ddfc8cf8ae3d4d232e2148433b9bda19cc));
(false, (0x8fe8df51b345989553484e20f600c2e46f4ed256f3c8dcc1615b872f0c2b925, 0x2738e06810f4cec5d894c91432edeab5ba632e54d06f494b751bba44bc93abf8));
(false, (0x1a2403cc5ef2ad62b4f09afac79a48a5ba8ef74f3321b65a716164d49b141c74, 0x7779fbcd8be50c9b021180ac97a544ad0c21cd1f3bd263ce5903b9afe4fd76f5));
(false, (0x71dd75fe35761c01a48597ec730bc33237902fd4ad8612cbed1031eebdf40de4, 0x39674a4532078e34378667beae5cb55f814ead9bbaf7e01b3b69533e9f88a411));
(false, (0x300d6b0bd6734e6170b814d2f28c82de4a2debb1c5589bc8b2671e0320587090, 0x40ca073d0343190c7f042b83c7bcabd3fa997de98f4bf0e2bdc4a7bf5c55fc81));
(false, (0x42545a6a59885c28266ae07652d24503c2fb5830c85817f6963981168cbec8f9, 0x706406cdbd1ce0bdbd9ea269bab2e060b129d6da0f1e6983fb9b15672c2eb507));
(false, (0x6c1262e3f8a43b517673a0ce209f76cb22d7cd7e54fce6ac235711e441703a02, 0x193841cf1e0f528b9a8d508a276202a84f1fb096c5ed013a7f486f0d269c007f));
(false, (0x57426aefc21be9ccf162e23d25ac3002ba8534351e65613f870f690f2fd46cf5, 0x6b45b002fb4e8a6f59a6ffb006ed71f75434217333b266325204c7d1ac2e1f34));
(false, (0x205aa3463e7e41af60f5cff4853fbd6f748aa1b132fe5308807d22c5030b48f5, 0x320b08e8ec6153e2be9955058bd26993bf50353e040c556ef8976663448735aa));
(false, (0x592c8b8843ca1f7d9ee692d5e29bc1612b0a98bea402c5c2e1e8253b65feea37, 0x42a352d8dc52fef9017cbe617cdbee3aaefed1935aa62f8679af6f2a1d00b5e0));
(false, (0x41c030fbca90151ce0d0064a815e03825ed77a4ac634604ac7137bd3713af22, 0x72467625ee43fb7ac67dc71c655e5c16e4e97c2a3d4445e7e9b33fcf0780f989));
(false, (0x6222bd88bf2df9d5d44b60cfb4a08a960078db7ed51a35eb3e0b6b8ff4eda202, 0x325bb42ea4ed025dd6bdaed261b7c4f5410b608ba902b068f1efa5782e45313));
(false, (0x23bc7abc84cb4c4ae5fa62b25a0a8114e8406d9bb93f2091142aa2d8bdba597, 0x4d2b97a739eceb14c95020371d7206e904f94b8f2c620dceed8511df0f29c9ee));
(false, (0x6d5066cf7137b4a5980aa453b672c84797fc6856f0ef5cf0c4be33fbbd39d169, 0x54bb8cd82a0a87c883abe35abeb81857f95200b4222ea95b5cb347115219a417));
(false, (0x6b66159ac8702d4e34073b76629deab2d3aa50942db5b00e4a73e8be859362a9, 0x19dd4bef38efd504e49b3a5d584432b9ce630883226031e75fee1a22c8ca96c5));
(false, (0x71ac99647b61b9eca6f0c23432a518f738aee708d5932d4ef0f172240250a226, 0x3a96c2c028ebe5f48913be30147e41bc5e1cab9595d5404138a9aa1b5574cf25));
(false, (0x221b138a1bbb6548d2ef719bbaee436114e7cb6b3225dfb94c327667ec45772b, 0x7951b295fab7fbffa46c08f6979bb32060974fb037bf5998d0ba5a38180cad84));
(false, (0x1c1b0d95db6a057eb34f28beeda9f6bbb5315285de2804d15c3b186bdb3f5c28, 0x57bd5de4e0056cbb4d98abef9d1e0ed6cab1628ac08e36073e31d00a9ac3c5d5));
(false, (0x4f846fad2eefb8c948a8bd3a87d8b4dfa0a0ab643e724ebb1c91437c567c9f47, 0xa2640ccde505da1aa9227bacaca13d49a67a199f0e16aa9f86c2a7e1bf02d2d));
(false, (0x1f6a1fd8cc0e05b2742ba0fc0369b5247670543637dd033e64dbce90b2f23e9f, 0x779964401ee869a9b31c0ef874a86440ba85d25c2ce932bd31a0865869605e19));
(false, (0x6f0a87af6e0f4a05fa7067cfecd4f98dada3791f714a66648dbb5cbbfd4f326c, 0x6b6013813505927dcbcb6a42e887cc1d5fca175e4cd226be6009248c6c6e36c6));
(false, (0x1f90c7ef4610dd083b3d64bac47574d9da326b536b9a6eb0f6c3134a847a0564, 0x63344ccbe4169ab97a13c3ccb097c0f4fdffbcf6284412303c79a1c8ce3a2f7b));
(false, (0x47ac42e7c59481a928348d7aaaade88b00b7aae4e73ebe0dd20e33092dd34e07, 0x28a6c1d1356c10ebea15cbfd161ae974f3b2a4f51ed06403c2f09bb58f7a8924));
(false, (0x22e2c039067920c42980dcb3a905fc91601c2b34e819ce1532ada4a5fc39d5cc, 0x631cf9945a09bf26d7e595b3f8e3390696870512820df63c5418577089e1a8bb));
(false, (0x1a62e85ba4a14a3f24f9dca8529ca842f5c7f18a3f429886d6b13673649ad53d, 0x1f6d17d9a1e5c5d8cbb98100757e5183551d00091183e6a5e1eb0dd514c8bdc5));
(false, (0x36b566a2c0f8e36e760992eb83d509238731939dd9dd0d19513f52e1e9e4f9ea, 0x1bde4ad0433ee4e19e734c558978dd945ed244e38414387a43e70232ed39bb3a));
(false, (0xfc8f365bb4b04e275d358bd3c277745c565eedff84179ee72cbc5a3e38fe7b2, 0x16f91c8191db1e7817455b6a395de2b0f4396697920ba0cd4874e2b534937b24));
(false, (0x608de273a9f6a534219d7aaede3cf65a81e4dc03d7a2765eced1d2b7be4610f4, 0x3b31d0113f98d81ab1312fb2837aa9c8dcc7960f84eb371358c6d841f67144fa));
(false, (0x8d1e75a33bf363f2ef64faa0ab5f9582d1181b793ec9452ea93a3011634d581, 0x47dd939350f06a41ea9c3d889d127155d0275926d05b5bc43977b5ccae42cf1a));
(false, (0xb2fcb60a19e6a0a29bcc1e5224ee0acfd648e6ee2143f90a5f5aa1c6d51c96f, 0x6301b568e9c613866d76b4c693de25e83435344795fb78c3c5e944a1f33239dc));
(false, (0xb216ceec26c5cc827ebff75a3b41630d8925bcf8ae53c7dea348f4c0dd3ae27, 0x563053b0dec5518f24c57a3f9138916ec287602e8a557819ad77aa2a5312bac3));
(false, (0x3f748617ca63ab3e44c6e34f63e7328ea56a2a146da34368a57dca181254fe02, 0xfed89e6420fc47b3938a2891ba9acee4cbb2899ee4e9ca15a13dc527dc1641e));
(false, (0x8f050e6e4bbb5e43b756c82a0ffd60723f78c3fdfb49c50378a1083808c3cf3, 0x38900048f0768542b4b9354736b6880632a94601a17a15adf4f233924875ee62));
(false, (0x2583374456f20c85e78e820263e1507524897a5232050bd0ebfc357d04b900bd, 0x62d1c4fffd5ac72c7e7dd52c2bc9ea4077ebb7032a39291e0212da60cbcea18f));
(false, (0x5b4079d8c7a5a10bb68984233b2726bd95196ae2b50e6052441fc4e5b98881d, 0x2329432253e9aa57901c1369e57e54e4a363d2cfe69069108c833fa8d79f612f));
(false, (0x69d98b5ecc35d56c97c0bf312955d199befe116b417d70f5f57e2dfd0af81ce5, 0x3e26d487fbfe36ab44e0ca3b248fe94bce92a69b8154d50e2d5481f8259f4e8e));
(false, (0x62a8a839f45660759f741c7892703326e4ad11bd9e102c0770af6ad49dd4b6d9, 0x3d45d6c61b8a03c29d11cb1e9660112995fd3bc8c1553ae897448b613555bf3b));
(false, (0x4e1c036204e123f311e8da4e3fa212fcf0acafbded425b71a66b0dccb2500e7e, 0x6a5908d961f00a62a2ac904fd824f6932f0e735f257a7d0d273d61736f1bb1c8));
(false, (0x7fe8906b455e9f3a49464810d3e6b8e5fef5d17226ddea3b18f08e2ff8552d6f, 0x1300ff9d28f135030203b137ea4a3ec18d5dd0dd6b29a6ee7040b97b336976d3));
(false, (0x1e34443347f9e627b3531157faab6eaca1bc3114df4a1423cc12bf8417b5d622, 0x295955a5ed061eca7f87b9485666ba9489ec20a9c484224dc920350bb4a6fc79));
(false, (0x4cab819c06b2f861b4be5b06a918bc314bf29f56cff389ae2ba8abd5f1f5e156, 0x1f10fb18bd5ecfe633b53936f70ce8e58b6a864e679297770f2b38160176681f));
(false, (0x7c686b90cf6ff6a3a59cc7d8a5e00a2c9b2204decf83f96bb56b53ef630df083, 0xf1deab1d3a4a3d2528d9103d118fafda873ccf0a518c45821d51a7fd71533));
(false, (0xaecf4e5a0c4c4da709921a44dca45965f89a3215bb5445cf72dddf4ade53a2c, 0x19304020c00e6169712d6050734bf5c51bd0af80b5ba4a6a0ba008e965216807));
(false, (0x51f4ff8c599b1c96da82941520a9f5abf4a31eb8b84fc95056145ceb3b5775d0, 0x35ac9588d46e41f3f6f99aee3852eeb4b12e807807d4bd1b7f8406b0d7863ac1));
(false, (0x568de690133ca63f63c08161d852682fa5696c0ee66bf8f3ec729b6a71bf9741, 0x4c48220992e8e64741dcdc433a0e65b43a5bae7f4d743e3d1bfdb123773039e8));
(false, (0x3342c4717d55221def46b89fdd237cf4e9528170f9b524bc6e730cc4663403da, 0x50676cdf00c935368d54ccf1fa7dd2671cd7ea46686e61fca49dc6a85b6937c5));
(false, (0x3396978bfc50b33d58eb8dccc52201ef36dfd27b914d8aa86f6ba45d29424d9a, 0x5ccf1359113c127dcb9d35bf9107cccb453eac7ca7ddbdabb1d0ca4ac8073393));
(false, (0x3faa2a093a19a02424f65a10955101f4dc015c43b2dfce8e001507abd741b845, 0x7a1de10dacfda389ca663b15574bdc8ae8c5b6e7cee647e77b11ddbfc6eb8edc));
(false, (0x30f9cd3076c51c96a9baeda10ec893105d920f022947716064e32717aee8e3c5, 0x2caedfaa420120c6711921684f9f5a2b8079045fbf3a4efd7e4fa7bc8cbdb095));
(false, (0x6070951e96e618be7d750fa819593ecbfe9c26972471ebed72c093714b7e6e90, 0x7bb8b8086b2c8f273841de642871dc22c7adb51944d64304c0fe5f4c1d3e6689));
(false, (0x1ec0eb040164dd81f57ebc3a26c3e8606154303a1e5de3af27b1afd99d27703d, 0x3df62c38b3077c694268ed7aae9a3329999e190eb81f07326e5cc3a1d1a42cda));
(false, (0x1924416956ea2c1269062588569b18178011ea7cba1a3266284f48aa01d5a90f, 0xc8e28127b7dcdd206fb6fee96eb88cfc7db7319826ac8cdb8b1fb8adaf021de));
(false, (0x2898ffaab663ed49ec57038cecd898fb84076bf49bf6f5c4403aff28ce974493, 0x94f3b96ab6c9477e759d6bcb9934557e613a0f4fa4fb6c6f4b3bc46f335163d));
(false, (0x34e2ddf5115701105d5d590f6617ccd7716c01b247948470c1514f12016bf75a, 0x1bdaea88b78eb71777558f7452cd868e6d7fc33a0f85c3d2038bac585c1fd926));
(false, (0x4cb56bd83d7bb25558c34ece98dd878ca5fe850aa79f4bf656269fedfe165cc8, 0x5d1f6fb463251914535bd81a9f9a8aea4d5ea5309b86c4eb8fb4a7fa15a03865));
(false, (0x49761c57ce3c8c4f1435d495903e2f536f3be3712e76af8d0b5a8b7d1ebc8fac, 0x3225035e1065094ef32d7f3e7a6f8ff2748025f96e0c0b44eb35576b61e150a8));
(false, (0x654b39f4650804bfb7c76a3d254377050002240e2f794f8de21de5640fdc60a9, 0x50ce7be2f1011218849a34ce62654414a8dcaea8b4db9b45dce3b76a6b121996));
(false, (0x91605b338ea1bd98bdfae06ba25bd540525a3b02efa65df30de5c6e8c637d0f, 0x1df405521e9a2232baf654aa3d2f66bdd6d57fd5bac96f5aa5f8ad2864bf8cc7));
(false, (0x4606fdec56d46970938a8f9fa5f24624f5b9c6f488b72cb1fc87e4feebbb1faa, 0xf00d9e6656d8243e0350fa5b89beefa58e9af955ed650a6d90cce344ecf664e));
(false, (0x4339fa86a23242851a16afc3ab05b352a7b4bf53599a49dd7e29d364fc3a757b, 0x6d07cc3462bae9160bbebb997510817040767faa9dbd13f158a5fe8a63a34b0e));
(false, (0x62332ee4f8ee5e56398dd304eca6ffbcde556467ba2c0d5fabb64e9736c701eb, 0x3e1bfb3c0218cf9f7e6a2f47f179f29b0ad68235929b4921fda74bc89fb8ef65));
(false, (0x7b9e0081b2e20f4f3d3f6d57f7bf977b2f192142a2a9e40b1aacd15140c88b2f, 0x93854716ef9794d2057036ff3f97da686fa3a1784c42279e8abf1fcc42b858c));
(false, (0x7ecfa6b215265291f32d21771e88699aac3133fdb93ef3a479f95e2fa8742940, 0x10958b5cdaf36afe557b7e60184207ce6d81883edf035bea63cb7da46c4720c6));
(false, (0x6bda13918dcbaf8529d6326ae7a9c278b72417c2188c5ea4f062fc50639295fb, 0x2c3fa803b162ee887d0d97a6734866f992f846625f314117075da54bb6c20a36));
(false, (0x19af956d2b5b4ac28b0c67889f19ad66a40f4bca1625e2007963e8a98a70b14a, 0x5e228bb5fbae687754307287833c3245a1ab34684a5a69174f72b460ccb69d8b));
(false, (0x45bf322997c4469aac6d1e4251fb3490e60e7c0cd5cdd6f5cfb9bbc53587b9f1, 0x529d884884075753fd9a2f9ba021ff427fea7b9773f0d4885da5edc024c69e66));
(false, (0x39632228d7d1471800e549128f91a680c9a64e37ae27d919a2609ce21522c607, 0x6f59557cabbd86e8e4d546e2aae6ac26b27b671ebd049539991e9ef27e00e2e8));
(false, (0x4da4821314574d4fed4dcf692c8b15b99b73f13633210333ce7871359b6e6424, 0x314016034673d2d20529bc93a2dab6e462bcb5f66e1f4a6bf2170759a40a6e65));
(false, (0x22423cb8e82129da6655d94354181feb5b1c789806240b135c4da1bd156d734c, 0x627dcf9be9be798eb639f6b776ce9ef34573c7a7f1d1ed220b1a23156f08cdb4));
(false, (0x4230253b946f9c176ea49e7fe2b913a35738999750b1e21555104dcab320bb4, 0x4db9dd92f8d939e6e4d0b0245ef57a62d793b173e977b8fa69558741d1e5afc));
(false, (0x63b06e648bf7aa8e8bbf75c0f3e0bc5d438683b063be9f4f09de91589756d7c0, 0x1b17d88ed99541bf1b2cfd50b7d4d87ffd627bb708d0c2445c68249be08bae16));
(false, (0xb2cea0029ee963c0034b61bf19e384435f14554a7d297b5144838c38e375586, 0x47ea95da28d39aaade5edb8ed941c687603cfdd1508776e96d6683199e99daea));
(false, (0x6e3d157d1cd96bb4ed4cb069497e6041334d698b1640a59a44a45cde613aabd, 0x72f5ce3c9ce0c93d9339b91978f1d9c688b56b3a3850627c7d7f93c427456c7a));
(false, (0x1f13202c95083f854583ff4cda13ef4b1e745a880460850e59e22c567d23ea24, 0x66336d356c381b7ef21109e7fdfd7ffa0085087eb55c4778ad42025c90275f48));
(false, (0x1d4e70e7fa35c13ec61efe8d7b8ae9e621144c1eb2454c350920e4ac81360393, 0x7b2807a91ce09ff20a518d85be729e118ae448b51763e880abd15795ddc22e61));
(false, (0x4c27afff3c45f32c952d3984e14e29a098e685c9c2e723e5fc8047ae60b7e824, 0x5f2c99e6526dc87d95f11eb626c29c3a90d0be1e51a4c49e5bbabd114bf5a66b));
(true, (0x6e64e5552b88e48f8ab3c1be8cc36053b0e6ec0831ecbce6fbe2fd29680c969a, 0x383c510fa4cb58be6a9dfc9339b85145363911589ec5521025352a647bafd09b));
(false, (0x655bb5ca314a7e2346f7896f50f3a0f4b83647cf80e5bcd0bf7f35ce7fdec499, 0x20f486aa7d4091f322075dc1654fb220af4386bf06e5ff04ef74d5ead3313afb));
(false, (0x6f74b17702a52b46d272a98a0fc7ed4326826ac719d2e86d00bc54bb1079321b, 0x5b65c7fc4d7ed02c667f72e5edd20d1ff2aa053c2b584dda59a13834dcaec477));
(true, (0x7ea78304507728dd99f0086fb9e090c5967f5f6a9c5d8fca0a1ec954baea07cb, 0x754069dc0e577bbaa4e6e641df716fef040ad634ffe944b8a97b3eb227cdd25f));
(false, (0x2a43c009484b1faaf8dede6f6fe34d7fa6748fc3f5026e350d124f34823d3f0b, 0x3859dc451e6c19be1d7aa2a00dccafda2c2b74c58bf065827d8cdf29dcfe3f77));
(false, (0x28e5aeef868576117d40fba6d18148a6057ad9fbe8de8d038e2742ded97176f5, 0x5b43a4a02f8caf711a26c0bef6bb06a23c670402778b076de5637978022a0142));
(false, (0x20534e2733b0702e18c1cf7347d3802dc151b2a2422b0bf8700dbd72cf0c36ba, 0x4b080f81fc24a4b4bddde36fd00fde71c96627045563014bb46fb9a40a81ad98));
(true, (0x3da2243ef89251b09e7cee395bd3fdfd30af1f0cc7e64b068ba2ff4286332cb2, 0x7cdeed1ac6878e126050b669a1890ac633a19abdd173c2f345c811c0b875defb));
(false, (0xfe09c4a8900e544e936020958905235ee23b83397332e7ab5fefba57ac0402e, 0x4299e44eb98bd72ecc4eaa24a5a639e68119abebd0d61fdc5e3c51a8b5802b41));
(true, (0x7b0e8f22ec1f580d7746e9ac14a54c4bb3c96651de1465c7a85fc4719c902da0, 0x5cc0a11e4922a9c9049045bdfe524f051a0fb0ed5379e82be46378ac5dc3af91));
(false, (0x643dc8dd49e334554c4b0b59d8dcf2974f418d855fa70bbf909e3f04fb850c12, 0x315d19b6b2c4a49854d8f1959a2a7f7935ce655528bcf5d7379b14fd59567a));
(false, (0x53acae5d55e1d02f8f6ef96823c2b53d34dde4819df21d4a0039546702e6bac1, 0x7b00c34a2cb493c70fe411b4661dc1885d91bebe3bc2d3ac64de9a116e441345));
(true, (0x7f39e0519cde34ef435ce2a7be21029b6cf1de4d3f3113ba6b374d3672ce185c, 0x4ee68e54e99b5679cd29b673be7e929a4861e4b905d3dacc5424e7f8c8753ba1));
(false, (0x386390cb42af5106c2a40ede0dd0348e110822c6bc696c39aae277271648a1fd, 0x17f3f9fbd70e2c8a0da707569cb9cf4c0c55713632fe542d1a5a182849fd5343));
(true, (0xd28853409e53c624231ca29326c0a8ccbcd4813f5982fecbb8d229daa062ece, 0xd90c94ed07eaacf34f572f11590d0d6bba45c49f2f3a6075de2061325dc961));
(false, (0x5726fee7ef018270c59e2b246f1e34e4e90f5116198f4a9979700ffdcaabf2bc, 0x7e9a0dc8e79f3f36d874344ac03a454d24aaf22f0ee85984cf0cc982f9cecd8f));
(true, (0x7980936fd2e9a76cc798cbda2fc0ad541ec2744d12406939d7d51661a917c09c, 0x56d7d0975cf23a5ebb1b401d8d85891975b35e446b561079dfab669827faf080));
(false, (0x3f016a3cdc96dd4c45be8112d11bcdbef08a05ab0b58e4a185f58ad077459e28, 0x496c0e2d109314b8493dfbdfab624bfbbb81cc16fffca2ed3e455271a68e0f29));
(true, (0x6961aaab37b03f1cfe2d3daf27a84a48d4d88a5f88cccfc80bd2ab34ac1dba56, 0x5a71785d54b24bf8d1248aa4725d8c5c82e1ccddb29e9a0b0de92fc212c9fb2c));
(false, (0x75332bce246d8bfd0c9cba7fb512cd55ca2b8f98f16a2255430271d0a9e24fb0, 0x2766fdc8090fb8179e50f8965d28faa5dc7dc634642db9d90c514e6749d80076));
(false, (0x1339f6e2373d1c5bcf2d2d5ba09e8d5bfe4ce052451128b6060643380649df1a, 0x6e5a9a384767243dab4263da05cdfe19b56ba6902f7f72fb9f9fcca97fa38d19));
(true, (0x2c395471af15289624772acf3f8859140c9cbaa4cbd9f25e1a4b8ea3fe5d79be, 0x5c37f6bcfead4fe91825b4e540d1687dda71fcd367e3c064f425e4e36a8f5f09));
(false, (0x6aebcef8f5a4418a25cf5451bc8a5b41cdaa69a6434a571fa0528223283ca351, 0x3fc8881da7870cfa0a62097c2971fad129cfaea920134d649fa976768dffadc3));
(true, (0xe6c87d81d9521f5015a9a65139d734aae08d33f7c5745783ef7d1c16570a5b3, 0x48449d43dd0f9b77425847e89acbca4a776e41ed2fd9f69e6a166fbc19206192));
(false, (0x2b9b50f1a05d46fc2750d2cb6a3fabf589ebe119d644862ac86a8e585d59156e, 0x2f191a82ee304a455cc5586a8ebd45cd9fec3e5e4a7a8f63c92287ca7ad5d87c));
(true, (0xc9a58ff11b3b5a52e525da407e3f53b3f36591dd2e1a73745c5c28aa541e1fc, 0x7c7f39fab1ca12c5e9189c9212bea9a5c5304f87c76d11885cfe44c8fa32949d));
(false, (0x68628e04ca4acc4de56208b8295399a2cd8a593de527073a1611af7c3f5e35a4, 0x55ea167cd0f2c2532ceae3934da1bd643a6788197660620a3db07bf8bc30894));
(true, (0x1c08aa4b58e3694f3479b6cca3d7ebc1f5ce7c7be450eaa3c0e722c9ef341800, 0x4088acf7361fda921091fa4070cfba9bf90c39710760219062ecc1a30a4f85ca));
(false, (0x793118b0db982ec4c67f9ddd89cf43fa07f5c4e1356ccd7b15bc44c7cc07d139, 0x23d62511a462a1480c21e2682985d4ec9838a6b73e1898f8bf3f9ef6d053e30f));
(true, (0x146be1e7c9c842667a027ed3b759ccf6b654619648cbdad381480e7d1928b259, 0x765b7ebd7c185fdc3a12783d1239fc08a63022ca9e2305a7629225ad977a404c));
(false, (0x488861f17a879db9dd07f3b38084e14834a9ef48b8213696c00dda61bff383d1, 0x596fb8cb4a08a38dac0ec16c681d395a2480ed6f83024ff7cbd7ea403238585c));
(false, (0x7042b73005ce8da92016b918df700d14dcfa978c423e3af01be50e020e76538, 0x13cbe68b2e9b83e44d281aecdeda0473dc67a39263e2b3a7bceb982e8b8321b6));
(false, (0xaffe8da3ef744135a1c5c7717c9e224eab9a9e0e5e97ee8e2aa1b744089b380, 0x4fe1376b3b146f90ff3f445084fa94d9c8ce2a05a1d7d25fda2b26dce231094c));
(true, (0x9f00a580ed6c398da955eb2d9cdb9b8cfb11a54a2cc76b1a99b7285b07699c0, 0x2a14b220b33d055d2adec71b5b1d3b5accbe7feae883fe5d739777b2d9b5d27c));
(false, (0x5e7be391ecd0bafd9e18843dcb7efcf9be85a1d5489568aedf9336673d14a773, 0x52b870ab3479404c390697f20e1bf88e184714a9f2b29ebe956885b1eed4bc74));
(true, (0x3dc2ea0ebacc76dae04804e8bdd85d6794412ff27e3e1a15aed3984a215b112, 0x3ce96d976429d5a4fe155b891c79ec365ed5347333b8a3fd2b4072f131ac8fd6));
(false, (0xdfbe220d1cc8e4a6c76023936f511aff6ba542a4ea24a0baf0ff1aa8756245b, 0x51d4aac3124d2f6f0fdf823c35ea01018cb85cf19ad19d4bacc4f5a07856341a));
(true, (0x6aba23904b5fa5eb01b3784da461d00839d1af16b178255c3e579464ff296d12, 0x40e3440c12b732df1f314735932f39fb016a20672461d738e44a6b873b71fc72));
(false, (0x499ebf17c701f417859f04568833f6f35cc7443cf653be53ddb54b6b00a077ff, 0x3bc5d5a837ee0af8785449f91d8ae088c09f7de6a4a618a0a45d5287cc2e3e71));
(false, (0x2ea68a6d6961e487b1bbb7c94b807e8628b45a5fef3ec47944231dc69667b172, 0xf66975ab48f65c8aba128a65a0dfa83f04a6008d3c0689485e9070e5269de24));
(true, (0x7f5192f483252e208b643b61e187013608693bd61087fff4951f925426fc37ae, 0xd2b31ac34a0860c2fa7e82446e07ce21ff96512c04486c9ea72b3f2d66bad4f));
(false, (0x2187b058d777c336b50d1dd2513885290710c23fe4d72cb5942f864055409d9a, 0x76516cf6d4abed511f465417d24ffe5967a32d394479296dc1397ab8db03191b));
(true, (0x2577fdea34a5a331f40c8f9b736a9fbdabfd8be7937ebeba839b977aed4bd15e, 0x47bb03fd9a059ea671af8bf95a24f7480ed51196253207cfb4780f6ba78f34bb));
(false, (0x3cf18e2dd153500ccad31a8f90c97ff317b01cb26a851b45c3da0f76b6c48a52, 0x7d1b4243b6ba39fc68c3b0f29c423cab5485d20660af7dd75d6edbca1e8e9aba));
(true, (0x50e7c2166923aafb603a6a4ec2805efa92782aa176b1cf1d2da6f353d24426e1, 0x163f11e23c22179f8054d29a25ca3624a5a18acbf89aa613620114c08a58292e));
(false, (0x3587cadfee1c6afc1ddf73dd92a62e4eda87ad23b6bb4bec82ce25a94099d83a, 0x1d0acffdb0e60311e566c24647610781e190080688a615abcff6e3f9648d02f));
(true, (0x695610990c75daa069c813a631a6061183549d768846962090f79dcaa5dc2be9, 0x526e2356b1d33db3ee1e11c8091c11dc69fec730bdd5a0533e450c13a1c7af54));
(false, (0x23afdf0d6a7e08f389d5a51847ced4f31b415ce3fa76997252d3c8042459fb4b, 0x719536c017cfa3c17acee83a1939f41c822b8db2c7ab21ebc87dbe019385bc0a));
(false, (0x28673d4d20fa9c1da7a7d66b9bd72bb8aaccc5b432cb4fe440aa9ec94d5e4855, 0x7605e384da666ce248309556829eb2a885b2150c839606128462591cbea71253));
(true, (0x9c650e9b54c7826b4cd04df52d3d23aa6117e9577163ef05d70db1da2639730, 0x29be7d8f82a6e39497d940ec819200e8771bd3e38cbeae5fba82543443a2f1e3));
(false, (0x525144e31ba2780a6d75ce270b192f93323f054e3a056b1ef74ed24c0ae66c78, 0x4ef69da42f8419babf6cb6c5c20e3b913d8e6bf49649fbfb2f5d331c91d742d8));
(false, (0x35465809ad5def171b2bfb58124e015b3a36aaca987e41b85e8da5afd60da6ee, 0x6bfab84c52496b9239191da5df149a62d6afdeac84cc586bd8bcdfd641fa0c30));
(true, (0xfb308074d5c933379d5a7235fb5c36717668e748ee8c9ab3485ae054b0aefce, 0x377e44a7603f8631565afac9f1e95368f51348484c1b83367c8d662d86b90ae5));
(false, (0x76145e80bd944d3b04b759c1ad23a0bb149d0a3d63878e4bbf90aa12d12533b1, 0x3a8d4a424e897751a95f74c919a41bd7198083b11858e603989d2d52c2d965e3));
(false, (0x18c5bfe58d2c9dd2e8bd77b4d6ea13dcab3a43cffcd0ed8c608bec658d135459, 0x51acaeb92ff3674031943f0152de2070dbe5e98e57a934c39c276e5ff2b2bb75));
(false, (0x70dc9136f5e352f230cbdd689ae7d73d1ec8b4d6bf4d5888a180d27186a88c6a, 0x4ce7b00ace68ed9a47f6207b7d268b851bcbd00bc04a3d7e54b9f353f4725665));
(false, (0x55007a544e5d576ea1427178a016552da596fd942529c042a7fca6e918add5e2, 0x5f910ff923bdfca6902c2c387a9fc7ac792699e52331aca00e6c0c9cf1635816));
(true, (0x5026ad788f22f5ea5eb0e97d5daf3e4c91d11a375cfcc6539dc67b61b2e2cab6, 0x546a8facb0ff81e8d4b0705a56ac4d945af6f7b101a6a82025249947bc24436d));
(false, (0x50a1651217095ca7c7e12be84e5ac03f02b688c8698c6d5fdb926f121027b1cb, 0x1f977756bf05d410953d32a2424b8de89f18ede292a61057f728943270dca2a8));
(false, (0x5020a6fea0c7b8fb798c17dd325a8e52897fe66f911c8e52d1d04a8c51f78c81, 0x32692a0d9f6fb215678b85b7193936a23c6f44c7df6e12a0c488d03d8bd589e4));
(true, (0x27bf02a76346800c883976e2ef60fe0bb4f6b8b67ca8e35ddb7c1f1b4c19e0c7, 0x34af30160732015d1afb7d6bb862609c6d7196ab27f6b2d4910969dee64f009d));
(false, (0x6a37919d70889f4485b5bc45095260c5f887ea7dcbead2d0f0925040b8405b65, 0x3e117f6c4ce6a75beed28d59f25fa33384cf7e767b341c9109d5b2ca99f14058));
(true, (0xeda526805ac53315097de854cc424364de09b677c3ba5ba880d79ec99704fe9, 0x17650d0facc47c02820c5f6624c192fbe7ede447f32b132f01aed546ab842e4e));
(false, (0x2f07a78e2bb067591789912f582c61f67fe0cd5b8245f5184ab2702d00f3cd0b, 0x1e49b86f7350c617577430927c7de09689e134108dc2611839ea9c6080cb1cf2));
(true, (0x4578ab76527dc93b22d31fc5ec709e59dcc02f648157d651c21814c9c360147d, 0x516eee594e6efb2ac34d2f9f2df43125ce857203fb430746fee069840d6516bd));
(false, (0x6fc0ff57db4468798014aeeb8a32524dc3a8ddab508a5cfb01c621eeffbfa778, 0x6bba98b582652fce7599afc865f556dee594aa5619e0db0e7218e611d4fdeab5));
(true, (0x63a653cf225b7d8b742be2e38160d5436c54479fff964ff2a32adcb7b3aa7430, 0x753a3483e7d0e045ac001ade2d762a62ba6cb8ea8cccc30f764d98d937eb76e));
(false, (0x495280f6f8613a4d03095785210e87cb2bf2e2f1de4fcdf53ad802d9dbdd4fe3, 0x65d3fcfa73a1fabb21e125bf9a173df3d53f195ceda109fa1dc3e7ae1c3ac966));
(false, (0x53c16f123c7874cc6b0cf408431313dbef170b5d183ffdfa2984bbd4a396ce81, 0x3efc9b14d79714a54c700cba6102d9282a234c756405ac856af638c1a8088c8d));
(true, (0x733c54266c4dca9986bd571ffd5d6ecdd101d795bb1bcb4e27ae488f57b1a022, 0x6dc0a5253f33f9e1634fd4341dd3da9db3257f4bdf8d5ff14e17f3c938072b35));
(false, (0x47e5ccc40daaf95dd24cfbf29964f8fd1963b46a4d8ca55590d261a7013c7c84, 0x1d43893411bd1e13d99440c4aa1ca132613c53b3b114fb80392c437b4d623b6b));
(true, (0x5330a79db5d675752cc8b1bb9e892ed80d49d2619840ab82770dcd321716f696, 0x5e9da6ed193932ae97fb848c876ebdce2506d9efd166695cdaf7e78b90926369));
(false, (0x14b8e1244b4e7c9141c94815b3ffa7c86f45a81f523550b81eacb207d941c9e4, 0x68ec7c5d93fed0a2ce0c847f05b38660cfb9c73bf6804cbe7f4cc8f056692014));
(true, (0x5deebd7de7a7545e7c203ffab7e659756f2759ff7b6b12d2fb59d02ba7301d48, 0x24ab9d0d2dfafb6515fe277ae19bc9780b2a9a157a1fb85a9071623d22c024ea));
(false, (0x6da3ef297122f3458bc77dd7f62ccec2a3176c6ec99a8a5365b36c80ee256bcb, 0x2095a524a328d50cf95a570182bb35a1a0501038e3c0478006907a6d80d62ea6));
(true, (0x38b134fcb2edcab14185bba354a60604e140d8f943881c570611d622154c2a75, 0x1a683ec8479e69fc479bbb93bba4d7f52469c7b35e5060e8a91040c08564705e));
(false, (0x6db79d4b001f4031c020618cf2815d977a4875e0ec42eadfd8e0d3f40b9ba4ae, 0xc277166834fbf50c3a3f59f302695df43509a3d809155095f18812ba5d721a1));
(false, (0x45997974317248bb37daad58ae6012f4be854f783c828af1e0d942e976c6a6ea, 0x79da8f28ff1410729c2c806fd139b054472c2123f5b8d92bf0ace67d5a9e660d));
(false, (0x41ade170c60897e875248a33d60aa555e9a75222888b7dd4bf6ce765854b3c48, 0x62659115f742ef046d832d96fe2cbafba859d74dd7a2f2b67a942f0814aea437));
(true, (0x3deddc210c532ba05c57d46b1e1558f10711d07bef62a5e090b5de45aede3e08, 0x74857910bd0658820ce61ca81efc0ff3c8a750ce50ca5cc120227735b34afb48));
(false, (0x6d1d40be71a0e772f2af0cae1c50e332d4946be466257b4e30aee75f899e669c, 0x73ac4670d7faeb7ba16f511f49122ffae46b5bb47f18a8a2a423d6551f383fb5));
(true, (0x716590c94b623b246a4cea0f46af1be45b0eafb0e963b81dea34ba85519f24d7, 0x4e393f3897294ce5e4e7ed9c0947ebc3775b0ca59900128e2a67c8b68bcbc3e8));
(false, (0x20f74ca0d6487756d502930e30118be838fff272f090bf9b9d80877667a550a5, 0xbfc748d9a14c87428a0ada40a7a01dbe8860f1b86ab970429bc6d471d39c045));
(true, (0x30dba84f0cd132775194b4a25926320b2b0c5f120204d8e9545d70d764fbb206, 0x1bc931a5b331adbfb5516736e78c6ee74639a8379f95208cc44233f1438ab76));
(false, (0x44987df38f8a506ca81878c40461a23415d958f4f116f1f666a9dfd0617c8290, 0x525618acec7d466cf74856a317edd906f8a177cac55b5fed5aa1bbaecbe27d3e));
(false, (0x567c281163625fc06276e3b75fea4870c4f3077ca5ef80dd6fdc51dcbc8afd1f, 0x7c9fe8d294d9748be92c38f17e898ccbb2b20612851621ae12c599a70a3c6518));
(false, (0x3c740d62104030e67d04224b575858475076abc1b6f6c5138146857ae99a2890, 0x6080a124de94a827a96e1901ebf763847cc14ab06a9d899572f4ff9d52126795));
(true, (0x438d112fcecd130c3ddfe1ea03751e6f66eb53d66108843669b2e93479c3005a, 0x165e8a28c114f70dcc3a7821003985799486dda92eb324f1dca11e221f0312c9));
(false, (0x18358b5ec14c3a1f355fc6197ffb0ce5d13de02b02d62486655389c71ac81b17, 0x3a4dc8abfba10552fa1650f91ed628441c20758112c3679dd8c3555b51a6566c));
(true, (0x50a50a832c3190d9182a3706f038a16bd1e637e630ffb355c2d398527ddc7ee9, 0x47c5a1b88bda73b531d3e6634ffaaf213c677296c979fa4e045bb6eb53b43724));
(false, (0x33d2496545d1f0fc31fe7c7622c080370003ff2a48ebfc3c6540b3731cba33d7, 0x7aacbe35b005c94e538f8e6392ad89940ef99d1f8293702db1017ca97b85d3f7));
(false, (0x4057004e03155a08105ba31581e8af5a43e17e54f2e35f449b4317033b94f41e, 0x4926f7d1f70405492cd9111ebf1cec588541ed4dc6b483cd1f51e5be13343221));
(true, (0x4f175c88f1f18c44c21c21d4859f4ab50eaed92d362b7f22c574d1887b1cf92a, 0x3c67a93523a8aa9763a0ad2b976c66c7cf62181c2fa809b15bc4d25be4560f38));
(false, (0x432f1938627f74e78671e2a43cbcb213cb9e35dbffec84a1941d0573b206498a, 0x22ce09d583c2478325374ad3f55c77db2950fd2989d41d94ed619759c00b485d));
(false, (0x69d813691098c822fb29c81e1a41b313ffadf5a69f17943e1cfa2e55dfb43122, 0x2a216d2062bc2644ed0c18491c46bb9dbc8411411aae71f7cfd400f652b332cc));
(true, (0xcf4b47ad791e73fa38f8aed02c9f6149eab95fe248c6c12bb9ae179d2c397bf, 0x598a81acf70c86d51fa05bc4e37386907bf3182ace4bd475efa21daaf5c6f489));
(false, (0x6269bace6fdc445e3a7effd54b1f08368f89a058b29240f2aaf4271aebfc2e40, 0x2facf74115d2826c7c4adb9245a6dd2dee14ed1fd476797d180e1085d0d281f2));
(true, (0x6a9eb9ab75e3aabd8bd21bfa246ce1e1bb598826469899de07d45d5be9e3df5e, 0x42f6a437f88165a3c2803a64148544f81e78564c81a59c0ecb6964ad7bfde2ae));
(false, (0x28dea5b653a8874341aed397c2f47f0e9f4e8db796628257f92a4a613a4dec75, 0xb5a5f41eb97504950630df1cc279904813319781798c75b73e3269b123d4ef9));
(false, (0x241fd8625768d336c5b2859ece0269dc744edc4f9be6f2a152b363c938292e77, 0x67b74adb92343107a0e770761d62e63d08d730d97f4aaab4d7a507e2d7a4fe9a));
(false, (0x14d4d53fd40390f03d1980cbc4dc1068b52b2f89831f71b3b589a6fd12cfc35d, 0x772b227c06bec255c207246f14a22fcc6c202661735a889ba8d5ce604ca7f3c0));
(true, (0x48c536dd151f35a5677221ce227b58185aeebf56f42fa0e35ea0e3279e51e9f5, 0x1a189af1109aafa2ea3950d2fd18138a5da2b83321a71491446cfc7f04e852d));
(false, (0x1e007174d56a63ed603d09825b4b6970d3e7ceaea90133db60b7121cbbce0474, 0x477289b0018aab0e1f4235b9606e93e36dcd2a0ce20a4d5172cf01c67b446d66));
(false, (0x46a9642b7fb5c9d44cb1a33d5ef366536d89efd7bc6d73519d6c87555069f75c, 0x71d3f6a21c2c5d63c3b5628506e274284c404c45b9bc5259807e5d7f281c4f9a));
(true, (0x7e31e25ce2f33bdbeb7c20940e4012716424ee1d426c5be0a215e26d4664ba8d, 0x574c1c6b3a0150def0940caaa7841f0d37a4315c63fcfa3006d005c3baf9ba42));
(false, (0x3a14729c88ed407f672192d30f7020b4f05825af9d2580b9f48d0675c31fd594, 0xf1388110a39b208b11ca855721ffdabc4229b7685f4f8e0aabca097acc6ca41));
(true, (0x66d729896eee90b4b256708d50bbe2ba54e92aca741ff1634b6715b51bf313b8, 0x5bbe8edb8f98d5ed8031069799fc0e65d93c3d3bf4475e79ddca1cc775f905d));
(false, (0x46ed181fa9c14c7ad6f26af9d8a6f3840369eab60751da48e07669441e427e88, 0x3159da64986c457fdc9a558811e02f916c3c1419e2ec7a77692bb9aa03eea812));
(false, (0x708ac5959efa659b950fd201d9d0dd1b0500720050201eaf649138e5414a076c, 0x35ce4b8c44cf204403dbdcb41ea0e409dd8d2ae186f7e2fa34325950a3f920a9));
(false, (0x4bcb5fe2d71d9b1d24270b76cd89ece9aec968750ad5286dc875bc3cf3533577, 0x3628ed54d02e5dfb64d0327c29ed40ab476e047ce4fa7ac02586ccbc75a214db));
(false, (0x63f263b8a78463d91d6b36e9dbe4499ffad5687c9e7f0dc45310224b10e4ffbd, 0x57522c241c319711600da8563792e34a86220a1f9559bbfdf41b46e0d1610bcc));
(false, (0x15def7d3220773cf17caa0acb3cc1592a0a3b31a9ae0c32119b23f6609f59678, 0x13eac586b39d40545275d33b9a1b989c179b72f043312898e49d2671aab0c404));
(false, (0x3a7ab5d0456fd731ba66658fbe73219dd5e3049211b65cfa0f95f354b521a9e4, 0xf8aa4214d8d1b29eb9b07bba973c12806495b5e821bbbcb3a571fac21c1970d));
(false, (0x75ac8909bf1e224f29732dcda6c64471cfc2c0480a9332a5ab6262f3e4e74293, 0x3cce4b3e3043fbf4dc7807940f5911dd415445864106e12c8815af37d8d2995e));
(true, (0x6952a974608d177fc8f5f3d942c430bf0faa89d6987b88db8e179a51379e0e6c, 0x14d095f1bc87afb8f11379e4cb0b560c174344bdc6f5d81364890fdafbe6c993));
(false, (0x7487802e30ac2b30020f70a04150ebd6d5da18997e7841b2efeb3ff1ed6cba91, 0x74430345ab7d848361a1ae5dd131cce5b499237b4eaaa8d6f20c24ef666f0ab3));
(false, (0x5e917a9fdede4806681bc041b0e45569bcf7251e5c74e8139d2dcd9c6596af2, 0x45fc91eba1ba3fe32cfe20527b179a7a994ea367f8faa02dd1ff4b68a17bbb59));
(false, (0x3b8aea1b5309dd6eb30d30bf3596a4578ee6a37dd4a42fd4c7f0fdbc844dbc95, 0x3c0c9a72fd4f9b40deb5f19f42318bb32d39b9bc09992c4c455c5fd67ed2bafe));
(true, (0xd47f14c8c132ef07b48fa44bf77800c9a711992cfdcf161d5b75fe915911ae5, 0x6b51fc6e8c2bf539b9c06d3f057263f1ee1ccaa6ddeae7f4fb3236f74bc26441));
(false, (0x432a126d4d4634439e01606c5667acbcb3ef0fd1d966149e325d9e30bc542ca4, 0x22bc7a01c7367c8d225e31a32809a7f9b2e1c2dae1b580960039e0cb6d2a2934));
(false, (0x2b5fb5ddd21b1cae59e1ff994944c1a4fe17256aa02c974d58b053e07647a145, 0x79d648e277e566c254f8442a869ec17b8071e46c526184439cb0c8ebd5c615f7));
(false, (0x3eaf1ba76a2b5f0b11d7e0daa387b9f67b3eb87bae0ff2ce69e02569f8939d5, 0x3f04caed886ef4e868b85e242ed1a6263b98b3347c06664583bd12dcc06c61c3));
(true, (0x6c6ce021fb62d202d23ed27c1605aaf64dd452950cf1f2a117a429f2f3796225, 0x77178bc18403c9408c457574c33e3c33b878dd59b8cabb659b328469713a14be));
(false, (0x4b8f042ca98af49b8f60199379da5e92f20ee8479307ebf3130510bb2d237969, 0x1780b0b3f597c214b7223d246344dda7f490c7ecce8123cd303a6b6c6d60c40));
(true, (0x3d38b1c0c66f51874e7fd89fe5a9c1fcfc236680c0afbf9d461a20404ca6d81f, 0x6a557a5fecdb3472a824ed6bbd1c8e73e159e6a2b59fe9f805a5039a1b808746));
(false, (0x93fbbfa99f64dc86cb4205e79c0b3efbd7144cc369d8b740c298bb94120e7df, 0x7db56a89ccd1a70bd28f0aaa384b91ee26baa9321128324b4a66dc432a15822c));
(false, (0x249381815e4b1cba475fda1c544f5845a8f4115a73a124eac6c0f319a926fe59, 0x3a03adcf9dacfab38be8536b09881ca3170c9220b3469476b55c08c6a289b5f1));
(false, (0x6ae7e7952c5dce7537db7571a53051740dfaf89d4da25b4201912dc9278615de, 0x16f2d16d2759ca1e6937a253c1d101dbc89ef93eeb2b638a5ebe74337add37b4));
(false, (0x4cfa44c0c5be23dce4bab911fbcfb97fc89ecd6137a641c70c768654e99b2c25, 0x4c3b1bdd8fda8ad330e2c86e38b2bc8f5e8ea900ff3946d9964268d96eb01d9c));
(true, (0x358fefd55b1ef6950c5545e25fba92a7b21314844798cd6ca74a261e517458c2, 0x179011d184c51760c90200db40ce80f10447faca84c42fb5d0a8f101fe8d3aa3));
(false, (0x683102a04269ffcab692df587caf2e9b41056b178a01eff3b5187f1cb431f463, 0x5242e39efa7997eed7af1a3dc14366feeaa17d1812377b0d429cca6f5408b23a));
(true, (0x3926bf21cba647fde8367602f0ff38c251405dd90cf2172dc4bf877511294a43, 0x74df064c09cac0feaccd1f1a52e21605469caa26ce0bfa95367df75b52399425));
(false, (0x69636b156dfb45574cefce501c97412f1bd9a32637fe427c32aeeb0900cc4666, 0x325b718ee3a989dc2143836aaf2aaac8045df1be322e4c7ab29aaec1ff03c3c1));
(false, (0x56ac2f28cb88eb654ee053238535e1811813791d23d0c7481ff2e86f8af419d9, 0x76200ea57cc69ae334d8625b0d22d96f140dd73f2f986350b2365b753a759060));
(false, (0x25fb7eb9993f0be9b5ef8641dd843f65354f8a61d26f2b12f016266929b12f31, 0x490fe8962f6ebfa75dfd14b3baf430e1ae9d51b73450086c69feb60e22ce937));
(false, (0x5cca363a50ffe6861e78963f556ebd1266f04e162f40e61238baadcce16b1062, 0x614330fcbd5ff656134bb6dbc0c74c87def250a24501c7e537aaf1c37d5a251));
(true, (0x724907c8333ce3e7fe289b3d85023f3923627328775985ea7014589228047415, 0x580c74f2b8ac90bfc706a71a01d17cba7ef573e456599ad3fae8dc10e5a332a0));
(false, (0x7faa5fb350d5c3c79744142d2bd9771bdd34065362e63d0a8b62796885d2d3f, 0x5167374e5fb889e0551618d46d8d54fc0fe66abd122ccf9f1bcb0612c530152c));
(true, (0x16c4caaffd215bdedfb2243cecee12a353eff2b64a1bbe9e558693b6b2757505, 0x57d1b65ed43756b07762d5ecc68aa569d793c0bcc2b30a2a34f6925ab3a90e42));
(false, (0x5c06c7e88d0b85a578c4af131e5a384ae2afb95989cd94a16ddbed32aff746da, 0x4bf6905e70d4136517cc308490826686feb00b26fb0509a2436f6799f33b6463));
(false, (0x298018a61f967b6ff22127beaea95b04642d09c240c3302757a56d697dc528a9, 0x12a64c93fbc71bb71dbbd637d8b4a5c2570fc3c00c91628797390688255c428));
(true, (0x7ea9dd8c6eec859f500b5a73dfdeaa73e360b4487e59d1eb78b60c3a2cf3936d, 0x750f204980a75d94747bdd36a8e715dfe5a2867cda5c80b4833c4d1eceed552e));
(false, (0x66f242c7b5371371f0b7a8c2d55cbb84e7cc3914e7009c4a28419f9d2524efe5, 0x162c584f9c65ed317ea6449da312cba2655901d568d484b005671033d587b6da));
(false, (0x4a77ee4a439242155b3fb380e6eea18191f03808aa1c35e5085938a641ec0a8f, 0x52889d2e49c717360559c0513c6d41828180324413ab90487e40eac43f7b0a38));
(false, (0x2da31ffd284a98174b33b0ff674c37e397cb83c5f78eb4382aebf181819b082, 0x42290115cb7b5283fd2807f1c8f2d830ea5f40dddfb024952eec31be261db0bd));
(true, (0x178a44f994ac35a0f3285af991983925240231b0c5bc6ff78040d42b3a19244a, 0x5bae1abcc2bb6ec3d4a2ecaa21b5dafc8f748a490908969a9fba9013196cc69b));
(false, (0x4a2a3cb1d2e123cdb7acaa066fcc06b4e9df4569523f2ecda7aa810361a6f8df, 0x55b73ab03479bb45e3237bed421d8acd78d2ce18c49e3bc0472512257cf60215));
(false, (0x16a935cb40748addde32a77d4243c7c884d8fb36e154840b241a413bef559fb0, 0x7edbc8c6b18860d800679eb62c587abff1d1d493846b268c3c47c920b20f8ead));
(true, (0x4ee055e91309b6f547645c6f85527e5c23a43727ef49a5ed6978660091cdda85, 0x29b8f31b8c18339b0c821ada412c98f90295683923009af48b88086cb2bb3ac6));
(false, (0xaf00ca2523f45c288fb16396be01aa9f27fe635762b9239bd47414c4e0a5785, 0x2eb23871a6a9beb2e47ea66dbc6aacb2aac8d847f2cd1bf81c6eaeb5fb4b2f25));
(true, (0x5e92bef0f7f029935cc5a6405fc4e54e174b03b8b2ec8d1133d10fd5fff3a5d5, 0x87a5cbba647f2b4367bfa168afae5bbeb91c92206a3d3676d90bf01fc806dd2));
(false, (0x688b06af67dd4fd90b0c582406114a5ce41aa75c3736ff207d76f56e529b1f29, 0x32f203a9b676ba97d7e640d2f3f5a7ee164c04df9fc0acfe97293149e357bf8));
(true, (0x4ed6c2cba2b42b67a03ade50c551ce59f1b53bfddd02ca8c156e33d4a0141e83, 0x7f822f1a849c0585e0a5478469d66d333fa0d9dafdca03c41782c6c42cdb518c));
(false, (0x2cf3886f6a491a82908fb5c7f1f70ca17af6b3c3693c68a7983ca594a46807f1, 0x7736f811343ba794b09358937c0c4f248f81ad982f5794827b8708cd4529060e));
(false, (0x6f14406fe8b1e547c8f1c25311160d24b3626b6c500fd9bcc56fee9ac0cabc64, 0x3f89a9583eddb8c4144ef006276d0c72854e705bf853ed8397789b9cfcf0155c));
(false, (0x6861e6dcaccc63a8ae0af4f7ad76fc7e6ef61d5cc1770c2d1ac1b24d84bb2ad9, 0x367dd71b8d62cb058e4b9f7ea858285438eefa2c41fc59c47e9144c85378a31c));
(true, (0x17d5a2bbcb05b5b3002253acbe17a80dc97db9473135481d1295764866541a14, 0x16057d9536dd8a7817009371eea615886335141ab09e787a413f13f47cf45386));
(false, (0x2b287d9bc5dbf2cd1c97ac6c60393a1b42287b92d2e6ce1158d7b38d612280ec, 0x6d3723de53b33fc048bc64d2aef1a6c1c25190d5e6c0a46401b0de7e3843192d));
(true, (0x74e11bb98d2a572104c97309804089fbb7d1a548759cf4a0fc33da88ee1e1d61, 0x5d7538af8c5697ffc3f1a4e5696d0a0a86e709bcdd50a100aa86d575a097a508));
(false, (0xa0fe3cfdfec6d36afc4785058cdd0d1dbe695a9a5ad1cd62b1087bb3e5580bb, 0x4afada738059fb6094506d77caa7724ffbbb84a1e5a4201be3e4c103e63d4b63));
(true, (0x370bcf4298c4b947db56858fbe568c30713cf574eec932afc018a10a6c1be5d1, 0x7e5e1c984288fd7733f48baf3e6599228b7a58cdb3a919e2eb92b55a985b733));
(false, (0x3deb7508625a9a1a61304a9bd0554659cb04cfa9a82664f4cd7f609a8899ce46, 0x42f18d7b22c43aff8f1bb904b275413d6e3e2efd551297c93e5e4abdd554d91));
(true, (0x60ac863b4b74c2679e54e63280dd1aa1707a245f08b0bf5b6429d6e8c968edf2, 0x2066210dd3c343b296ac9c8286c289584b74dc5003233d5134aa149e8577d81c));
(false, (0x640489281d9dbabf4c72ef95b3c730d5967097fadeba0deb375dcb8e4542ed66, 0x3521fd49d2dfd164cb226b717d9deca16ce8deb0676e923f6aa6c6b5f974d2e2));
(false, (0x6bed9bda7a0757ba55772bd79d55ba3f192875dd53a26c000e6136ae4a33dcfc, 0x4323452515812eec775a96c27a48c75a4a5d592548e3598d629b23acd498cb3e));
(true, (0x4072ca2307092495c01440e40b19aa130df7020ee0490dca1b5cf7f0b1270692, 0x2e2d1296a1cdc3336897f9a3623403c7e128c95d7276337566f642b38054b1cf));
(false, (0x380330e076d41f5710d318e2c62831386291e946d5b01f3806667f1b1905b247, 0x7ce980220bfd77879ff3311357c77e1d52febfe38f1fe80fd39674350dedcb48));
(false, (0x49fe5b2879037c9f07296b84fd5d7bd9bc099187c28f75ce3b9bca634419b046, 0x2c32560ac1304b92f92acba35b884964535b251cb07ec0c82c491bdb37db5dd0));
(true, (0x31a0a560746de42769d0c44e3c6344d1e84772dd31ce08738a2a66f77940c66f, 0x77f93c57c573ef2daf660a25ded3ac7fd1de802d9a617489061fe0d9e5146ce5));
(false, (0x3ee80a03b17f2c62046996ba657ffce17e43e19b6c743f05170f2be05207829f, 0x6f6961e72ed154c47318d043cf21e808a84492afb1a6d37baabdcf700479314b));
(true, (0x395a3769c37a6d028355b3a8d943cdc6319677e936133e0af09fc61de3e227e, 0x46ecb145656b72ae77a28f686fe70a2a1bec1967f0f675b24f9e70fb5e2ab119));
(false, (0x4c04ca05843708a77c4ae34c57317cb515b5d61af842183e712c5b08e640dd1e, 0x4bb9abdd73041eb33e312408dbee94619914c028f07ee39ba994c15c78c2cff3));
(true, (0x3fc42d1dc578fb470be8333c0a0c28c174578958cc0612be1e723a2955f001fa, 0x1594a187c1f55ebe2760df470d49b1201a51badddc729d8560c7720ab121c870));
(false, (0x52ebcce638e343d8c62d073aeb28fd127cb4015ce583df5c0428850d13854ed5, 0x5827e6a85b700fcabe143bd3367151996257355e3ef9bbc51c23a04007c7aaf));
(false, (0x328311710f4fb7e4374e61af0f01b4113f06478707a376344865f40d0e358428, 0x36017a5ecfff82eb0417cb5812ea6be1b9938bfa3cbd527aea3bb5319c91a089));
(true, (0x228186ee051ff14e229513ae97e899bbbe33c3eeba62e25aa187da793bf7bc63, 0x39af13cdc3e32d11a6c4f51df741f5696a1d8a54d741c6d47db65297ecd0e730));
(false, (0x126ff0067107bd59d0bda2d954adcfb19be1ca45d169f90f3b24b0dffce5b635, 0x1fdc65578c8cfef58cd7f54fc29250b0fe8c16eb55f575e4486fb632f956bb80));
(false, (0x56cef4beeb3de11659875735371548b600de8b9731d9e43dcaa87506596b7b3e, 0x58946677980578b96c24485081813dc5717a301b171f0e2a1ddb736d45e09dd0));
(false, (0x6339bd5e48f6968063fd45554ec9624b8605c360d7a16157c09fb9c9c05abfb9, 0x36b326b9843e99e1dab3790d57cd881c52038b00348327d1b0dab33996a6c38));
(true, (0x27e9c2fe99996175741f39ee4d2a4b9bcbdd3b9d0f085578158446374ede2610, 0x39d0bf89176407e509751b209057d9e829abd76cc76980472d43571c0ff629a));
(false, (0x4b7d5c60cf89942e0ce995845e04a7c74364d946df62017f0529a268df514c8f, 0x1dcc34a8875338b5190a2a2a2fcdca91a4563842ab2a0b1b3e3cf41afa5aa9a1));
(true, (0x375a0f20a93ea76c70e80fefdd456ae685fcf3349d755b1df071b840af853d22, 0x2dce56ff34ad037accb51ee0bc417a265015d300e7bb54fb9b5325a0b09b9268));
(false, (0x6b73d4556029f3725947073e053e2c09edfbc99feb75f88647b6be5cc38bda8c, 0x20ef2570ca0845e6c36ac67a502f0411b3b7e05c6fccc1d3f82ac1759dd278c7));
(true, (0x38459e63fb98571ab2668db30bb67ecc7b0c716b847647a9b2553dcaabab3375, 0x160299ff850bc2f8d941dd0600c03a895e23dc140901602e615417142863e287));
(false, (0x55d5275b9aa56c8bc46f8cabfe93561e1ef13e129302b6e33d329d41fc7bc7b7, 0x3a8fb1f9b60a7058ac3550da6f683e9b88b314e375e91066c30dd6dad880430a));
(true, (0x412d51c6b5b0333b9d32566a0f718f293c065d203e47596c487fc9a4146ac646, 0x11caa89538d4b46efb1217596c925cd0af5c74b79d38e8af9f7e4f166a40ae2c));
(false, (0x5a086ffe05a6f60498a22be4d54a28b25af83d8e3ea560944df17f3d612b445f, 0x73e95e54d53f191a304649934be5aabe07e6fc5042ef09999188a7c44e12780e));
(true, (0x1ffcdc8bcc51d1246590fd631cd3a526361f0932ab0ebbb438c64294cbd70364, 0x1fc2b3171576f992c236ea77cfbbed6a052c069e2bc0adcffbccb12a9f7fb1d6));
(false, (0x4af762006e067bd7707b0505a2adf2abd41594c22edbb8fe8d046bc64af26047, 0x198f81851e18375709ef4a9655dc8ca113830cb8222ad99ecc0a475c45ad0f0d));
(false, (0x7289de2a1aa59d6868fd8a781c8569b7a6b8dae7e72abdc6f80ffa1357e18590, 0xed20ec5c8da185846e46fb71b9f593a8b0279693c21e8586b38588bf8eb2390));
(true, (0x21cdae766ce224df7fd3bc19808aaca3cfcba0937207293a829ba24b72076893, 0x1f79538392eef08604bdf033b0463f84aed9bb14c2d64cd526bc426731bf52a1));
(false, (0x6f3c1d580aeb7f18c348ea816ae11eb718d7ea96339f249050401396b8d8e542, 0x7a73c23898bd39a42096eb9cdbd5d3d60ae4d9badb4baed7016a4449f89863eb));
(true, (0x72ae998b572929f5fd20ba2adfd10c7afbc9bbe9d0d93cf8cfa51130afe990f6, 0x1a17d98da7bd9ac5fb755c2cf8fb2b36735a9264b9ef1043ad4d065381dc693e));
(false, (0x306ad5575ae1e840c8d3df2438a96bd29617e302bf0cb269412f64c0b859c3e0, 0x70bc44e7a355558547bffef8b575aa3b8b9aa81ae3c89c30c6b22103079919ac));
(false, (0x5e96c92c3291ac013f5b1dce022923a396d3389f6ada584d36a9d29f70da2ad3, 0x6666666666666666666666666666666666666666666666666666666666666658));
(true, (0x0, 0x1))].
(** rows of multiples: row i is R, 2R, ..., 8R with R = 256^i B *)
Definition row_pts : list (list (Z * Z)) := [
[(0x216936d3cd6e53fec0a4e231fdd6dc5c692cc7609525a7b2c9562d608f25d51a, 0x6666666666666666666666666666666666666666666666666666666666666658);
 (0x36ab384c9f5a046c3d043b7d1833e7ac080d8e4515d7a45f83c5a14e2843ce0e, 0x2260cdf3092329c21da25ee8c9a21f5697390f51643851560e5f46ae6af8a3c9);
 (0x67ae9c4a22928f491ff4ae743edac83a6343981981624886ac62485fd3f8e25c, 0x1267b1d177ee69aba126a18e60269ef79f16ec176724030402c3684878f5b4d4);
 (0x203da8db56cff1468325d4b87a3520f91a739ec193ce1547493aa657c4c9f870, 0x47d0e827cb1595e1470eb88580d5716c4cf22832ea2f0ff0df38ab61ca32112f);
 (0x49fda73eade3587bfcef7cf7d12da5de5c2819f93e1be1a591409cc0322ef233, 0x5f4825b298feae6fe02c6e148992466631282eca89430b5d10d21f83d676c8ed);
 (0x4c9797ba7a45601c62aeacc0dd0a29bea1e599826c7b4427783a741a7dcbf23d, 0x54de3fc2886d8a11db709a7fd4f7d77f9417c06944d6b60c1d27ad0f9497ef4);
 (0x14568685fcf4bd4ee9e3ee194b1d810783e809f3bbf1ce955855981af50e4107, 0x31c563e32b47d52f87ce6468dd36ad41f0882b46f7abf23d12c4c4b59f4062b8);
 (0x6742e15f97d771b642862d5cf84ecf93eb3ac67b80698b993b87fdbc08a584c8, 0x21d30600c9e573796ead6f09668af38f81783cfc621ee4931e2f5ba9fc37b9b4)];
[(0x5e7e07ed4e1decbfe6e9cbc126905449d4b578fbb561576d20b8bcdd0cc2a556, 0xf55755c51f102796bf5ebaa81d3260e7d1b3d9ac127d9a80e142031566cf6c7);
 (0x2eecbf81b3d084733331f9eefa70d42621effd9b303961d25409333c82cd340a, 0x54d2dc2da137827c4132d9b740a119b6484d4d4849e6e074b89cf764008b93e8);
 (0x70b225147463be28a5aa7b1879cd8dbe57eadd2aa53d51b94566cef314cc93bb, 0x244980ded32ff401c2606727f94d609a147934004dd9160a5b9e7392b18d9c02);
 (0x6b113a52f9f3fd0590ac7cb6c8cbb37abcf147c44b2ae11d9151c7d55b4a2b68, 0x1aeb017159697e792eb8da1805519c06296595f4f57996c590954359f327c13d);
 (0x661b75757abbc179ad6a11dd399040591e057ee83fe6428719c2fde6e9a95bd2, 0x5da1ae1b5d4bb12f0ce022f4f807c07d10c9557d6db12ae497d97e42a7b09be);
 (0x603ba4adc34a9feb3b4b4de22065bd3e2cafd6aac31420342fea3c8ab6490615, 0x1fdbaf2c3482ccd90facd46ae046c50cbc48be06d2f37a9a812a2a95c0e658bc);
 (0x3d718e644bf2d3a45d1e15af3af9e330ebd6a85bd12c1693369d40310b391d99, 0x320d055dbba3f4142f2288113a22a8925f902ac77f1f7280a88e3bf5a23600f9);
 (0x3c1ae7527612d38bb541f511fcc6283d8482afe93115b345ecd2bcfbbd1317f7, 0x51c91c3f9d7e57eb786116c8545f90fa67f5e8b62c32ac4512015a20711364e)];
[(0x5de7faa2ee4e70132f541f79ca07cd54a39fe1347a6844d19e9d678a8411a565, 0x2c9f23641e1c2e0aab8ea9926b432d92c0e8bc08901d6ff6df85e4cef854ec36);
 (0x74e337a01c13b537323663602811d1d532d8747e81489415271411b172d04f27, 0x8648f02b3a4daf96ecffabdbaf3599fb2ee85dae253b2c21ce66796114e25f1);
 (0x73ce78c748a872f2a197a7a16fffc81c8814e07e49379eeb4dd94e4390d7c290, 0x33c172e606062ec6fe3963cbf960e070ceae653d3fbba994947de13a0a0cb2ca);
 (0x6a6fbd51efa6a855e82cb0142325ba473fd7554aba208a400737475464f29434, 0x16f5f8529f55fc2b7cf811161d7870ade1d1617e52c3c4f579ea06b27616d671);
 (0x455d905f52d04b5ff74beebb11d774b2c5764a4dfacc3bca3445532a8f320ca8, 0x33dbf271d5fc72b69bc227bb0c7913b1eef9baca6c02854657460470fe6a8b5);
 (0x584e7f2a5e3671737f705f1a906dab675706549e0491e9aaf264643dca20439a, 0x2e5327982a30dfe81232f3dbc0e9b8843347320ec0f65d9622f8fe4e547c1381);
 (0x7783d619f52f8bd4e0c839d8c7e2085d11ce2fed6abda9a6666e57c725de8fce, 0x7b87c33701d609fe8342123d99e9ebfd4453ac1a100d8238b005cfc4600c5c4d);
 (0x243eb188de73a5549b32c39d2ef1b29623709a9ead4c0e240314e0c5f69a9634, 0x3779298951f452d801eb7a0b7eb224cca2dbef041081cfa582afb25b1f4ce2f6)];
[(0xaf367956af630266b1cc760154256ed79da960dddca9d72a1e8cf27d8d43a77, 0x21108d900134d3b3708dd28ace96b0b23dda9100e4b6a62a8131bd2f2ba408c5);
 (0x2b760154fc5ceb5a64141345f55b1b57e5b0b1d6c5a07dea8ddf074fbae70d33, 0x7dc81af96fed42e0373411203fa2ced7629fb2eb6a2054e24afe3696afc20c02);
 (0x4535c89311d604f3aaa0e4d88d9d7b514f3d23c8f1d3dccac1423f36e811b9d8, 0x69dd3661ba84b8e1aaa20a3d90806ac9372d33d5840f6c977aa7bf9008d63661);
 (0x67dbc33418bbcd3878489398639484b6d6fa42f875b8c5af23bc92c69c5bdb6b, 0x38436fdf8589a33059fc92e7ca7aa2250cc9ea48391b1e517c6fb056093af396);
 (0x69f0b68125b9ab0c6ebcf63389c5cfd7621379497a1bd8bda3aa49b3ebdd1011, 0xd2a89a19c28174690eccac4fbe32dfe444e1ad763c55233d46b7a47dc3669d6);
 (0x34d9729a3945d42cd08c6cd2c09f8f53dfca8d55031fea67189d5ffa5112f8eb, 0x65efef05bd03d24eb46154ee50e168707c01553364e760370db3cf404c6279b1);
 (0x271b64006d3d0282832762a869c867f449f0888797e6108a58e30403c96f4e4c, 0x6e0746310b9c01c2fc648f1039d803b053ef2e7903edecab328045df50bdd7d9);
 (0x29ea44a50a4b47b8b3dffa01dc5f2271d5439ba8a82a6ec0c454e9bd19448479, 0x6c775ac8ab2eda8cbbdb4bd1196ab24630ac6c1f97389de19e9d5f63af509005)];
[(0x4d1e116d136158c5ddabd4276832800f2c081c1072de6f2d931797a46abc0cbb, 0x6d415be49d4e35b65cc51354b5008f8c43e84b7b5e8a4b84f44e1efb10c9b91a);
 (0x4b5bae5a77a867ddbee3944524f8e2ec8c2a6172c14bd432cd42148248127d15, 0x739476e0b38471219875a4580e6742ecb6aecba57b8c0fa0d923b8de209a77cb);
 (0x28e01e9eebe624f050385a759882d4f1ae61ab87c739ba5f1f167e5a18ecc8f9, 0x34a3ef208089429b6293a7c1ab71048dd3a1b4f69b645e2a7b7682a0a58a68c1);
 (0x33bfa90cc1b9df13e106ffcf6ca898d06b22d51df337243bf85b3f232869fcdf, 0x53b120db6327cae59fa5fff109017d2df4acef01d2f10981439d824fb2da81d9);
 (0x6759a4f961d6ac87116ff682cca6bb2af36ce2bbda2202c694f70b4a1110cc99, 0x7e6c7c2dca5f44c7b2591211600036d4b1011a2605be16633ca43f61ecf8af35);
 (0x56bec703109151e787690e04944ce775ea94874dc7aa8115f0d434a9ade80267, 0x6ab2ddd0750778ccdca656b4f3710c05ce7e47706cfac82b512e6b33ec86fb32);
 (0x4bbefbdc2c60867dadf3a817a029c56305dae0a7b5eb28d0420bd6530a7c82bc, 0x6eb85cc89c0c2dc979d1ce5dcc3e74f7ac3547e10708a095040e3f6849538107);
 (0x444929347c2ded029bc19558b0f69a4492017a9c35b370711e08222bc0b9efc6, 0x77785ec5cbbdabd645a3251e7da57c8ffc39158c0d7b25a4211c2aff2e1d6245)];
[(0xf6c3a96e0032a9394337a02ffb2c83ba70efb8f566feab530fc90fa3b4710e5, 0x3d4e97e286378675038a4b58e84224ee515e1d6697ac79389f78479be167635a);
 (0x3b13c71c2a90bd24c51df6bd138c5d16208a9ceaaa8eb34a69469fade6abb440, 0x14890a7ab24817b2bba826792e8fd342a6f705af800252616435be180d16dc54);
 (0x7983fccb8fdffd787f669568b35189d08fcc6194c31874eddf3320f5fd1d642b, 0x3c0fcdb8f1b0cccc2927571daeba50483de19ee5579ab5abbbd963226a436855);
 (0x184b48cb455000542259174da9a6eb83a928b2835182278abb6ec091e388a820, 0x3ee0e07a03dc33a9dd60c2682380ef736679a5e383faf453fe324dba26e77c33);
 (0x5d17bc7ae6348ff1d88f460eb1a18752c3ff569529fcac8f4d862364b859c113, 0x53daa8c1f06682f6163309add59e196f440503b0a5514f1785cff1ed5765a23d);
 (0x2d86e1368ab546c9547c0e0e1a73691984c2208a53b4cba3f48747ad656376ce, 0xb2538616310b0bb96559890a1e5f8488214951a9e1f77433bc14429f04394f2);
 (0x5260385be84291557508c683f0e59b8940aaaa4692cf5b1ae4884369a69769d1, 0x3d894f1c3c8b531d0473ec10231031a8ee3910a63f8a9e4e7264164a69a476bd);
 (0x5a04ae1195edf508262196e9d23c259c937f81769b2258542b78e3c0fb135c34, 0x676667092118acccece87e75f0a6825c5952f92dd499943efe831f9712c5e8b9)];
[(0x52a837bc7a7bc9459bcc2ecf80f74d9ed99def0342e18cfbe8e799fbc504fd52, 0x50d6460185d8924e5485f23f36a98c86053514d163547adab6fe91478a411196);
 (0x3f30ee695b236bc74620afb10469324b45c8201a45cbd6954239e64086f3cd53, 0x414231531dd52e5555640faeae608c4a0c205a04f56d187ba80855dbc0478370);
 (0x4fbfdbab005592c2c974a2cc3fd1b4ef7f8db640afbcdc838b0a78966b88fcca, 0x68ffb955a83a0ce5a55313f837bfc1ceec03abe700fd1897a40265662d061c93);
 (0xebc38c54fd6aa12dcc60ca5c72ed865b7c35a6bfcf98778c235307d306de6e4, 0x4b3a1d9f2ef40fdb3e31ddd56a08526dbda15a4f58d78162c7bf23886763ce2);
 (0x14c053b040dfeb348ad42bb65738ae4b07ea830efd00a617a93185647241a6ac, 0x7ec77091bc60573797e7d29c6759cc88a8795b8fc77cfe47f428eb9cd0eed3c0);
 (0x6518baedfba8e047c2a5fd2dd7ab3603d3a1ae44fa7d61ebfe6f43240d99fd8b, 0x7388f75389963a211fbfb657c328754d31d66911cf34305a79e74b4a4f04a46);
 (0x78ad307ea1d917594e22f8c331222feef87d6a4c60846ab2d315c77bb5d37d53, 0x601b077b6cb162507fd2bfcc034047bda0c48f978ebd175341e055e212791a2d);
 (0x3b75696730dc8d8cfb7ddb23241cc7ce78a13e6a377db5da527a1058e60e49db, 0x34d031744cd2d9cfef9f9ea654000016fb3e8b4a8c44198760f46016166deaa9)];
[(0x71dd75fe35761c01a48597ec730bc33237902fd4ad8612cbed1031eebdf40de4, 0x39674a4532078e34378667beae5cb55f814ead9bbaf7e01b3b69533e9f88a411);
 (0x300d6b0bd6734e6170b814d2f28c82de4a2debb1c5589bc8b2671e0320587090, 0x40ca073d0343190c7f042b83c7bcabd3fa997de98f4bf0e2bdc4a7bf5c55fc81);
 (0xceb59a95601dd68d84a34cf289ba4bf943583e7113fc3374433b7ed36905232, 0x1a781b6de1c34ced784426cce7055d4fc9a4f977b025f8a0f993582b61615a85);
 (0x42545a6a59885c28266ae07652d24503c2fb5830c85817f6963981168cbec8f9, 0x706406cdbd1ce0bdbd9ea269bab2e060b129d6da0f1e6983fb9b15672c2eb507);
 (0x60fba0618ab41287a32799f605665a8e8ff9f9f986e51d362c1ecf68a8476ff2, 0x50fee504978daffe84637a29ae6d339127f584bcceb8b9a6b88f645080245d2f);
 (0x7e97763970e96e86fd444e2b16752f6d95def8555f6f8f25c8278f89e18cfa41, 0xe85b4c08f01ee8f8c01916e8d44ec3fd2938c6da58ad86e79d07ca1146b6217);
 (0x208622a2f72f9fb6c09d6f4c647af6698cdba3b5daf6d302b3d2a0b25764cb8, 0x14467120e8a31d04aad8776ddcfb459dfc13e47201e1918a9e1c9cba531169f5);
 (0x6c1262e3f8a43b517673a0ce209f76cb22d7cd7e54fce6ac235711e441703a02, 0x193841cf1e0f528b9a8d508a276202a84f1fb096c5ed013a7f486f0d269c007f)];
[(0x6222bd88bf2df9d5d44b60cfb4a08a960078db7ed51a35eb3e0b6b8ff4eda202, 0x325bb42ea4ed025dd6bdaed261b7c4f5410b608ba902b068f1efa5782e45313);
 (0x23bc7abc84cb4c4ae5fa62b25a0a8114e8406d9bb93f2091142aa2d8bdba597, 0x4d2b97a739eceb14c95020371d7206e904f94b8f2c620dceed8511df0f29c9ee);
 (0x132a065edb5c4041c59a8b49ca8a61df2ca8caa6ccea10d88007640e33263467, 0x534ef70a3532f780762d6b7b85e5cfd1b390b0dc31fe8ea59865fa3e1dd7de2f);
 (0x6d5066cf7137b4a5980aa453b672c84797fc6856f0ef5cf0c4be33fbbd39d169, 0x54bb8cd82a0a87c883abe35abeb81857f95200b4222ea95b5cb347115219a417);
 (0x35ff8f7cdb0869347f58215a74ba0a8f63c0310fb99a0b275072429c7b04c2cd, 0x50e1cc6871155f055469e86953bb606b4e1b5717dfe1a8a90fc49cbaa6ce8b8a);
 (0x6c6365c17f4bb26f6b4e87079a8328e54012bc64947385a12af2120a622e0213, 0x1c5703a9d3d1a968c8320a0056a9ec8e08dc332a60b8d3eb0309499e5494c782);
 (0x68b818a50b31d52cb8300141be7cea83479de51848c1e18f3b944c675bd887d1, 0x1e8b233ec00766b228ee74d7536d8f439685965535addc774728e4dfed398826);
 (0x6b66159ac8702d4e34073b76629deab2d3aa50942db5b00e4a73e8be859362a9, 0x19dd4bef38efd504e49b3a5d584432b9ce630883226031e75fee1a22c8ca96c5)];
[(0x1f6a1fd8cc0e05b2742ba0fc0369b5247670543637dd033e64dbce90b2f23e9f, 0x779964401ee869a9b31c0ef874a86440ba85d25c2ce932bd31a0865869605e19);
 (0x6f0a87af6e0f4a05fa7067cfecd4f98dada3791f714a66648dbb5cbbfd4f326c, 0x6b6013813505927dcbcb6a42e887cc1d5fca175e4cd226be6009248c6c6e36c6);
 (0x398c8c8c8e8dac3256749db66b66cb447486132ec414fd516b4eaf0a0fcd15f4, 0x7fc5e88a596b4265adbfa221d1f69e234140e3fa1f3b5c39f76def111a7459ca);
 (0x1f90c7ef4610dd083b3d64bac47574d9da326b536b9a6eb0f6c3134a847a0564, 0x63344ccbe4169ab97a13c3ccb097c0f4fdffbcf6284412303c79a1c8ce3a2f7b);
 (0x3d22b58c663ea91b49e95c17c7da1563cdb6c6ad70a46de9e2f59fd686603f08, 0x7240c7e82ba8372733d8bfe20d176abda80965f9f4b7c7799742b63fb03b0eb2);
 (0x6e6c09db77eedf33e50185bd1bbcc0b0ef7f4f4fdf4b79ca47645e86f1900608, 0x5640b667ac2d72e3ee569f906389cf8bbad999a4f5393f0dc1e0eceb9c916f07);
 (0xa8728e5d785180354c86e453192f0f76edc78727d7ffcd4b5009339d2475746, 0x7ef39552f5076702a3ea621039065565a0d37fb09323f708ccefd41cded490c8);
 (0x47ac42e7c59481a928348d7aaaade88b00b7aae4e73ebe0dd20e33092dd34e07, 0x28a6c1d1356c10ebea15cbfd161ae974f3b2a4f51ed06403c2f09bb58f7a8924)];
[(0x608de273a9f6a534219d7aaede3cf65a81e4dc03d7a2765eced1d2b7be4610f4, 0x3b31d0113f98d81ab1312fb2837aa9c8dcc7960f84eb371358c6d841f67144fa);
 (0x8d1e75a33bf363f2ef64faa0ab5f9582d1181b793ec9452ea93a3011634d581, 0x47dd939350f06a41ea9c3d889d127155d0275926d05b5bc43977b5ccae42cf1a);
 (0x4b55df555ef78ca29bb08cebf74ce07115205182089d86efa70c3f0dfd1da83e, 0x2faebe97416b3b52a2e97ec02e0f2e684149bd6d58143aad304e6e8cdcd6194d);
 (0xb2fcb60a19e6a0a29bcc1e5224ee0acfd648e6ee2143f90a5f5aa1c6d51c96f, 0x6301b568e9c613866d76b4c693de25e83435344795fb78c3c5e944a1f33239dc);
 (0x6d187e11aedfd714ee4dea3643b18b006f965f8058ebf3484c38028dd62ec76e, 0x3607198a1819dc40a27d5237f93e5e31070512d561d0bc17e2e0464f0c1ce745);
 (0x4db4418f87f778eb75185d9b62e977fa433393aa9d266f51081cd99764529a1f, 0x5140b9860c78ea8062554ec86e1edc7ac76cf7cddacfca01ebad13e93e82a813);
 (0x6e1a9bb685adad8d9971bee76c48e9724966d0b285f58e0d44431dda40465406, 0x31ef82c7b281aa8d9f2c7c3ebf401d507a4841751f3e2bcb19039e6aca5e83e8);
 (0xb216ceec26c5cc827ebff75a3b41630d8925bcf8ae53c7dea348f4c0dd3ae27, 0x563053b0dec5518f24c57a3f9138916ec287602e8a557819ad77aa2a5312bac3)];
[(0x69d98b5ecc35d56c97c0bf312955d199befe116b417d70f5f57e2dfd0af81ce5, 0x3e26d487fbfe36ab44e0ca3b248fe94bce92a69b8154d50e2d5481f8259f4e8e);
 (0x62a8a839f45660759f741c7892703326e4ad11bd9e102c0770af6ad49dd4b6d9, 0x3d45d6c61b8a03c29d11cb1e9660112995fd3bc8c1553ae897448b613555bf3b);
 (0x5ff031a9e8f4a9a28d7eb3a97fe4334433112299c6b825d0a55d144ba1ee3347, 0x67c7ce2874df5ab040eae515ee26eb81252dae3576ff40d732927f6f65c163f9);
 (0x4e1c036204e123f311e8da4e3fa212fcf0acafbded425b71a66b0dccb2500e7e, 0x6a5908d961f00a62a2ac904fd824f6932f0e735f257a7d0d273d61736f1bb1c8);
 (0x2ec34149929644706035f41d422942c1e1fab37c0d6ea35d040adb65174136b3, 0x2ecb17530e69ea2cc55c3c54a78160f272e4fc3dd40e3e39b3a33c31999aba40);
 (0x1216d39000ebe44ca69d80a6ac293855e1cf96c550e2e20d518a520ab77d56f3, 0x374132be82d973bd7043aab912324ed03b4bd0d9a649e3823e78f4fa151fd1d4);
 (0x3cbe5d79f358c7e60396980dd1058282ee0a12a7ac7eb90c6467f0362dedb022, 0x2aaa635d3e22c2e6390fda3222be6cc5aced55c60e849e2f696edd1a92e82034);
 (0x7fe8906b455e9f3a49464810d3e6b8e5fef5d17226ddea3b18f08e2ff8552d6f, 0x1300ff9d28f135030203b137ea4a3ec18d5dd0dd6b29a6ee7040b97b336976d3)];
[(0x51f4ff8c599b1c96da82941520a9f5abf4a31eb8b84fc95056145ceb3b5775d0, 0x35ac9588d46e41f3f6f99aee3852eeb4b12e807807d4bd1b7f8406b0d7863ac1);
 (0x568de690133ca63f63c08161d852682fa5696c0ee66bf8f3ec729b6a71bf9741, 0x4c48220992e8e64741dcdc433a0e65b43a5bae7f4d743e3d1bfdb123773039e8);
 (0x4f2f4b477f6ca632750965a4f97d966f9bb1a9e6faf03f479fb206c8b59f5785, 0x13115f873b8a8439a16d3208a70462c16ae38525c23cccf25480269d9359e934);
 (0x3342c4717d55221def46b89fdd237cf4e9528170f9b524bc6e730cc4663403da, 0x50676cdf00c935368d54ccf1fa7dd2671cd7ea46686e61fca49dc6a85b6937c5);
 (0x282a400973b64ed0a93070fdba88d599fa2fd0541f48df6e99fb0fb8f1eccccb, 0x5a8a95d8ceddba93595c9fe01ac6bfcd9acea0d1e0c3150c7f562dd27aa84686);
 (0x7aaf48f59f15c20d43e5bcc0a9f0d58952bb338e8186376520c29d9ed297dbd3, 0x2765ba6a9e76638c36149c63bfe62de38a8f0ac8e8e0934dac69896bf1a58d6e);
 (0x336498fbd2b4355ce5f8c55891b959133745f4cd49f7c39bd4d979baa2329b4, 0x653338b616279ce7e44b1c37969b109fafe0fd52fff48d9aa1e08a7c5dd5cbd8);
 (0x3396978bfc50b33d58eb8dccc52201ef36dfd27b914d8aa86f6ba45d29424d9a, 0x5ccf1359113c127dcb9d35bf9107cccb453eac7ca7ddbdabb1d0ca4ac8073393)];
[(0x1924416956ea2c1269062588569b18178011ea7cba1a3266284f48aa01d5a90f, 0xc8e28127b7dcdd206fb6fee96eb88cfc7db7319826ac8cdb8b1fb8adaf021de);
 (0x2898ffaab663ed49ec57038cecd898fb84076bf49bf6f5c4403aff28ce974493, 0x94f3b96ab6c9477e759d6bcb9934557e613a0f4fa4fb6c6f4b3bc46f335163d);
 (0x59de4b2305d8b7af6da1769d1b27473ca5ced8b84b82a54cebfed2e98c19a76a, 0x4078b0875ce149844fe1a6462deca6e4316be1259c1726e94477e2f9f1dbe4d5);
 (0x34e2ddf5115701105d5d590f6617ccd7716c01b247948470c1514f12016bf75a, 0x1bdaea88b78eb71777558f7452cd868e6d7fc33a0f85c3d2038bac585c1fd926);
 (0x55eaf5fea101c94fc2b9234f2b62c5786056bfa6bc8a23e59979b303eaac5b05, 0x644f4f10c2a13c7e312a68927484d2041cf62a6b2e579ffb291e32fc1e0e6d82);
 (0x5726e2adc5bbdbf0cc76250d1c69ed6f77f96d075a84616a35792093400eeab6, 0x79735f155fd92f05890ef8f0d6ef865e8498a950d9a93cd127ed7d966b0ee8cf);
 (0x2fab7584f9ebafa144803f10de981adbfdce1f5eb97c95d29927c6b674fd1963, 0x27b70248f415f448daf44f5ab0b237645218ee698b29652bcf59da2698c7f981);
 (0x4cb56bd83d7bb25558c34ece98dd878ca5fe850aa79f4bf656269fedfe165cc8, 0x5d1f6fb463251914535bd81a9f9a8aea4d5ea5309b86c4eb8fb4a7fa15a03865)];
[(0x4339fa86a23242851a16afc3ab05b352a7b4bf53599a49dd7e29d364fc3a757b, 0x6d07cc3462bae9160bbebb997510817040767faa9dbd13f158a5fe8a63a34b0e);
 (0x62332ee4f8ee5e56398dd304eca6ffbcde556467ba2c0d5fabb64e9736c701eb, 0x3e1bfb3c0218cf9f7e6a2f47f179f29b0ad68235929b4921fda74bc89fb8ef65);
 (0x33287cd3c57f3dcd485feb019177d1e96976c619395d27326d1a396aef810769, 0x70f3e2be1882489b3126ff2bf72cf74c5f70358f5633299eac146fea1c371cde);
 (0x7b9e0081b2e20f4f3d3f6d57f7bf977b2f192142a2a9e40b1aacd15140c88b2f, 0x93854716ef9794d2057036ff3f97da686fa3a1784c42279e8abf1fcc42b858c);
 (0x1c70927aa306eaf587c3ca6fc2d4c6f02af2119e03129631180e4d47a7c2e55b, 0x2e259ec780da033e55c0baf4c3b4d80268e870d26e6eb1c10cb5654a077444f0);
 (0x1e22f8e8551eaea83b689b626ac089595eb5ff9c9bfb4c3c44e14989f13c72ec, 0x121fd5fd0c3ab08f0d82a53987aac64d85a071f32ef0d6daec0117e4d3609883);
 (0x6237e93647e5e784102427171f6aace9270584072224661a326062a41118f91a, 0x438c3caf8e404f0c55d817948230e504be55872b056d36c7975d165245f5b2fb);
 (0x7ecfa6b215265291f32d21771e88699aac3133fdb93ef3a479f95e2fa8742940, 0x10958b5cdaf36afe557b7e60184207ce6d81883edf035bea63cb7da46c4720c6)];
[(0x4da4821314574d4fed4dcf692c8b15b99b73f13633210333ce7871359b6e6424, 0x314016034673d2d20529bc93a2dab6e462bcb5f66e1f4a6bf2170759a40a6e65);
 (0x22423cb8e82129da6655d94354181feb5b1c789806240b135c4da1bd156d734c, 0x627dcf9be9be798eb639f6b776ce9ef34573c7a7f1d1ed220b1a23156f08cdb4);
 (0x32beb4e36411f53e324ddbd920d42bd403e93f61e3957ca6fdf1bafd72fc5b92, 0x425a36157c40b8503cb9a0e61ada1359e9a6c43bd0392d6aa5101fc9e7901786);
 (0x4230253b946f9c176ea49e7fe2b913a35738999750b1e21555104dcab320bb4, 0x4db9dd92f8d939e6e4d0b0245ef57a62d793b173e977b8fa69558741d1e5afc);
 (0x65f711807e58866defe3423611cca254bf4382fb1e50e54f50833c62b35f9f4f, 0x66f79ccc68c4d222542315abe148d5fa57f5ad3d0b2733fd35616d7f9d9637a);
 (0x115b217ea5058247e884bdc6a11628b6b2122a7249abd7f6851aa4052f89d69a, 0xd6e86f3a086b7479bd12ef37dd90d3eb65f06e7a9e6c90bd2804137e9279f1a);
 (0x1e90739a6bbf8455cbeccfe11a1fce59c64f2315b4c51d17ed1ca0b1d181a9aa, 0x43299d97384722ca513fd249d8d69fe0c92f1282ab313cd498a5f82287b7869c);
 (0x63b06e648bf7aa8e8bbf75c0f3e0bc5d438683b063be9f4f09de91589756d7c0, 0x1b17d88ed99541bf1b2cfd50b7d4d87ffd627bb708d0c2445c68249be08bae16)];
[(0x4c27afff3c45f32c952d3984e14e29a098e685c9c2e723e5fc8047ae60b7e824, 0x5f2c99e6526dc87d95f11eb626c29c3a90d0be1e51a4c49e5bbabd114bf5a66b);
 (0x786be30733efdaf7a08157f7907d6ee4f6952c728fbfa269fcefd1b43224e085, 0x653a5f772f34985b34270ecdd4fd08472a7c08beb39d69be4eab0712c63e2736);
 (0x9c186afb833951ca2fd3aa58b84f09baea4bacc8756d94b3125ca89f193c7c7, 0x6137b0746027b353934695b149864a1e02a82a6bbed54ff11a349a357f7b062f);
 (0x21fee4804968a933df8957815bc8dd9cc6a4d06beb4d19b36cb822f04c2eaa13, 0x500b7740072cb51d416c5da150858339bda5367a8972c2313060d3e930901700);
 (0x4a2e1f96eee4e082b813e0365c89c9e8eda10ce5973c99554919e3a2b12d4f17, 0x6c3f24822e185c5b8c951188bfdf0da8dc229e517335a66444d4b832ac846fc4);
 (0x5dbd3bf95494d7466af195bd869d2435462530ea6d0536a0af41449ec0ec3464, 0x56f5f77776e9fbb0863cd8c0a8992ab9a342ce2a7b7b9f8c137ce1c737e25b77);
 (0x4b3702044575d3c0f1f2d57df9771cebb58e011afd275e119370badc76ed5685, 0x54333c50acf332f52f427a80e5606aafe36dcb0fafcce292482027acd289b820);
 (0x77fe8a5d490afb6ae4a198065e9488f8c358adacf1dd564e28b7136e1146b3df, 0x3c530f01e039f3168ac0033395218d9122acc9fe0a3545ba6d75c5afa5f50246)];
[(0x7b8d2c823baafe0d878a55e8af1db150dec85b1424a4901f9beffd3a6196e3d6, 0x1c45a557b3624f9b89ed15b3c3e1a065f1b453d948f7cf45d9494483f8af0c85);
 (0x5fa2b1dfec51bcf38de2510adedcc695952f36b9900f13efb45d1c3cd099c188, 0x3f81faa56dc388bd64de21b25252d72f40d64b90bf427b8569409b7d23a1682e);
 (0x3780a1d4b6b5ac99a5a263d5965a5a96a82361031f6a4c8e2a8ac70bc7009528, 0x3aa8dc131e63258cb6fc9f36900ef3b98de318d6652cef6d83b95fea238825fe);
 (0x1f878c9bb777a0586a03dd7c310986d8f6ec21f7ef82642e799e668a7b47fdfb, 0x59479937cae12df41a31892ac4bf58b9c5dbeaf4e0ae1dab3421553da8e44755);
 (0x58458308ef6c0a563e6a18fd5dd19e38bec30919d58bd5a3e5f5571a8e1c47ff, 0x259d664d2b336b78964952d0ce2309727544e8326beee6860fd626fc2bb1c02e);
 (0x333f8eef2b1f715f8f719c5733005103407d7994a7bcd3e50763ff13e0665cb0, 0x131883d8fc4cafaa36d64a9b19ee223097b2a1b287fc33b67087f4107b4c7b5a);
 (0x7b10e1d26d95f4a3ed81d68d5b08e51dc82286e11eaa0224979e22afd443ec39, 0x36663875e8dd133dc940c67fd902b27f69f1a18d2489f1a8605e817ca6919549);
 (0x8e60479f7f51f3ab2119b5875deac32f750073264da7e554535a949c163cac7, 0x1b2b6c48c2eeadcdb2115bf4ee5f90861be7c49767ba67fc96fee1fa4b22fa46)];
[(0x2b556bbc070b5c4bae9e575836d1d68ee9fbe800448c0d2c233f78185eed3f91, 0x7ba01332807ebd892e00ddb368c0fa1b3f19b5b32efd90b178d984e1d7174d6f);
 (0x3f5c47b490be4e04f8915cc5f3c1fe8e5d190bc41ed00d8f43b04444af406f1a, 0x537ce98e07428214d28bf2b41039cb54ea8da86045baaa3f077132fef32c3bb0);
 (0x1e2b1d5578437b24454be3005d3fe26af5a83ca079baef777ab98fc98dc1aeb0, 0x41c6747ff756a8d26636c73ff49f128b2f773731a7a458e1b915a06716d6b801);
 (0x614118e22068c64a823b4a570572d49131b2f8d1d8cad3a538ccdd30a8b4f85d, 0x63ebe5283599fec22b8d9733a9548505faa5a3cbb5477811b0651229478dd419);
 (0x233475488522f3b085400f1056f312186b541c4c21761e46b7e92e2aef773c8a, 0x37e8d773be2a47153e03b94795d65eb7c01ab125bde0fac72a9d6b97a812b288);
 (0x318ac05007ad4d2d9a4a5e75f9a9a73cd0ef25238d9ee25f10bf037bcd22844c, 0x6bf5a299dfb3f82734752a977bd9b6a42c0f19cd1c2cf57f1d53aac8823222a2);
 (0x1b76bf6bdb2579ab5efef8a6a3486f82fa109f44c95d04c02c73fccb0d152c96, 0x502f67ac28825e30f3173e20d3f03eed459a686f427275365706761efd0c3948);
 (0x13aea1849989ffcc18795ff824240b157052292b065060a0b3fcf4d8ef3f3fb1, 0x884949c8ca12b70fbddbff21b25e570672d6ca4106005551930c101c2b81f44)];
[(0x1cd96ef237b213cd446f13b3ec40d32ecc593bc6ea71e77efc284341a5f3da1a, 0x7a626aeb91efcb5f9777264f5e17ced8b411f68c713673ef0f184a5ccd60dbe3);
 (0x275d04f2b3510c56664a8098fafb5b4c950dec7e83f0ccc4832d810897a24a18, 0x57dd6527da326ebca62ddead9b4863daa69c1f11a39c3782c3fe2e5a06b8b93b);
 (0x5dc17a1192ddf8b87994675371d8535a425cc54d3acc37195e2da501bb5309c5, 0x68538e31bee79120e2f97fd30121edd15e38acdc2b9884b63e86f21cad653d78);
 (0x3c3b6a92efb1b73a190aabdea635754eeb5ffc376b2a0787adbc2e7d31374f84, 0x126d49709e40cb07b122e980b9452a94055c87763b1a81e7eeac60396d94b23b);
 (0x496222725424359a98342deffb0324830e99572c6c578ed90ff3883000762536, 0xb370634de2b0ce61aac36ee698fd3c1c45dbf61c9df9fcb2fdc1925fd7ce64f);
 (0x2201bfeff751535d6b14f21329c1512e84a619f174e5a6596e7d4ca8847818fd, 0x2af4f8c0bfb0380a171fb165f5ba2a76687c12bdf2fc81f20772fde64c624ba4);
 (0x13e4b9507e542650b23268777e255c6253a91d6ade2aaa93368e9e8a4550bbb3, 0x79cf2e8f8e6b970a797a8b9b4aaa5bedd1d695916ad5fded36dad4bb274a03d8);
 (0x3cde77866cc73b07a52a9ece4832e2a02c9a85a6709f5b9d4c711de45b556055, 0x79f2b3d77f3f44c771f685b6d3d352d7e4f20072b64efc55a957437e967a18f7)];
[(0x543d84cb04fb2bf787b7aa382eaab5cd8d050ad8ee52aa8a285b945652014031, 0x358fdc5b63ed49e693d838f182b275846f42dd49a42ec2e6e932ba4de59ef20);
 (0x2ac4c0386a424b4a4272506180181c6363395b4094f551f6a70e1fb4f605ea1, 0x1a36c19fc30e5e46b07b2ff0721fb77ff4330e554ffa874f0074860d7de3877);
 (0x2d2dd667a240fe9e15052c0f442e4f59a3788c3ca3989002f3b3a6db62a039e9, 0x377bd9db79c5d85227ba6d4639bf0c8d64aefd115cb838db76e8791506554dd1);
 (0x2816f8430d466b9b65d0990c2fd6f455861fb600a505f7297c8283d3ac2cc513, 0x5452c4b45430ea383524c90ef0c66ae08745df0664ab5a184f89b17e74b47f1e);
 (0x1caeba6f06a2c5acfb1587850560bfb1e47f47bfb9bcda01adc46a6fba4bbef3, 0x65fcdc11e7ea75774a0fcef54225dc51a91ec180c6bbd59d39656a7be98d85b8);
 (0x60c2952bf5adef4c8c4eac720dd0967c6b9e902534c8c8cac50f5d51935a5c7, 0x10ef5d494482524977c653dbb01fbddf2b2cc571b01caa4734a84b4205427f5b);
 (0x5d41698923f4e95516a15fdcc07651f9902e3591596e892c45a537b4701f0c00, 0x2d92794a28e9f2e8bedadeaf0b8298fde48aee327dd41077c5364780eef8bc11);
 (0xcc495fe64bc4816637f94251df4cdee3ca74aff90c1e427744489c13fdc9fe9, 0x42138e7b6cab977efec0d3e669437ab9e0f228d3e38c1a6f6a5e06036e75198b)];
[(0x7efb45d3a2851109d7a8d50ddb08fe308bbf674c019b965cdad4570a141e648a, 0xfe1198b11a1bf56867091c69d71f8b7792257dda321d43652e818acd0c28cda);
 (0x5d5225a5e2235c5216cebd1847b2ed69e45db93cf3ea8cf012ae918f2c983218, 0x7ec9e5494feecd8d348a92636b5babeec6b5ab1982778140bbeebc4e5de7b1b9);
 (0x6db3c0d1a1f27fb0927da458c5094175bfabadbadebd785ee99ac3cd228bac21, 0x7b499ecb9b1bdb3f12e8ff00f1c4ed63d34986f92d8b8d77776ba7775d04f62);
 (0x6fde98f557e3360932b5622351886a898e4639488c2433586e6b1d729a2e5760, 0x6994510fbdad700ab9e84413c29ce02525e5b1d15be55269875bf94a48002c8b);
 (0x73d4d9f5b9708fbdfa3457f84ed45d4fd9bd95f1a91f076407b07c406ee8b4d5, 0x256e14cee7d41e0a865df1a6a2d03716b20fa52b32cce3736a17c7fcc669e516);
 (0x5c3370c184b6f61303b2b6a3cbbbfb9a2a154ed321328b0350bf43a6a211a8a9, 0x292a52d9e93324005d35aa45dd11ab1105896dd9390331387e76d7269a0ad07e);
 (0xf9df8eef9562ab6f14c70c8bda2f490d3b5f23743fb6d40f8bf09f014389c99, 0x42ddc05b73970fe43751b75a52f4c842b509ee407430296edd9a674eb33be730);
 (0x705bd9027e77d82d951c8205d33a5b3c3695fe7ee70833035fac2d25a9abdca2, 0x1417fa0628ebc3a194ca46d423ad4a41cff08879e02c8e51e0d6cd670c1bfec2)];
[(0x4892cfff7f94ff7f07c1241e3ac4945bc46ea9d6a3c1c3adbce109a9afceb6a, 0x3ae2aa25e2555135a7a3251c11a3f8eebe81758bc1c3e2cbc6e6ca461a543130);
 (0x60c497780d40c8b1ba4f5dc4a2262b84528083f770b07af0fa76098a9f1048b4, 0x22fa44ee0eb502084f6ca208ed0757572fa5b25d76f30b5f733840c7086cb1d4);
 (0x7d7225dafd9c43b59f53de50a2232f2079fd512ec2cdc0401d094d528a5f7598, 0x63e030388d50aaffa92ef62ddd0c7c6977336f22ff2ef9ede19db18d4eebfb4e);
 (0x480d816072eb67bfb2aaa781fa5316978947e10deb8b7f3165561904a63f000f, 0x552d0f1d6bda43b57e73875b499952c016af17ac436baf671e5684a8cd33137e);
 (0x148a7d88b200dc224b62a923b9f58c9e323f4767053e57cbeb3b3f7e95221da8, 0x4f4f0b1a20843403c646345be083da0f8f802af55314659e2b1adfead4e889b4);
 (0x130130d18b59ca9d78a8dd09fcf85f147e1975a56930e1cb1c933f84ff1f58e9, 0x29c224fb2db0a7452b55d9dceffe465a8911d9d59c7059007099894bc50376ff);
 (0x36c2e3fa23db337fcb93fbe309f54f2ef651bd54bb708fd5c9f838d46484879b, 0xc5c488542844d3587d1934428ef0eb27c2f08a72787757c7de13ce53eeb864d);
 (0x378e98824a6bc4f1f82d26f746906680086caba8f7e0902b97c482ac0bf80638, 0x114214780d621d31b86d6e60fe7b92c48ea22834753d0ae01bb23fd4b8eeb48e)];
[(0xea2c846a535a115972161612a192588d92d68a3c9050eae91b2817b94e68325, 0x3b82a8337b05f11bbac176a113be183a50a0331f3d3116f24b971b5a8b0d031b);
 (0x561d2c1d673a0e91876dad49d7c6a6c6ddc4068445226d2a0e777dbcd25c5f3d, 0x2dac09925d76226bdc776a3309ccecec6de6692370dbd0de19e5d2d4cf747afe);
 (0x70231a092565f0c7b906e37b3a2987d2b2d01cf9efde53f402c033c6e4ad2af6, 0x1df8dc634575bb9652a7c14badf523565c5b6ae551176ee1a4610642c985a6c2);
 (0x140b6f1e4bad46896617dbbc2d4b1bedacce412cab91f0015e12dbd3eb171523, 0x444eb3598ccaff53dc272b0ed8d7543e1270b04a5da34f1822482d77b6bfce11);
 (0x34bd49edfa2dd7b810ca6bae43163dff4f4f945d01075475545652250ab38365, 0x73feaa96bbe61e5e37897c4dee6d4c8eeb3d675a060e0b678d1a217edfd34c25);
 (0x70d99008ffcb5d61ae39921364a5a374810cd0e2157fe6f0bb5a8e8a83744eb5, 0x56b125243a0695932e329af9219f827103983b62141df7e8bc8ec54e726c32b9);
 (0x7b50476b0a33709bf8dd3260cbf7f16c2d41e6051131ba9ca3f3abc449a3d1a4, 0x2448c3ec7026fd42509d9012a2f18623b4ddc9d21d8bdf5e57b12a1e8baa33cc);
 (0xa9fcf41f6ef7ccb545e615e1335443229a1822845ecc07e3921b2660f617607, 0x732fb4faed1673a8d23b79b5ab9356c18c586f395d96d2249f8ae6c384daf9dd)];
[(0x1bc7af1e38185e7c2d8d04371c7e177d7a9ddee1b81d7d26db7ad644c7dad28d, 0x61d909d855661f2f7a5eef87795dc0491d027e12631b270fcaf2f65900314833);
 (0x6bce245f8c2596bd228355a6bb8a3d9f2fa8975d8daa7d00799938218028354, 0x3d26989cdd0f6da0c92acd2f10754858c2c9418b0de8789496fc955188a3c065);
 (0x7665908aaf4445ef643c3ac9c27ffcb40cb0ef0eb7dd6eee7ebd89041b29662f, 0x4ed18a7c50da4546ce17f8064f02b40965221938b8afa4137083a00e4b704ca1);
 (0xa09b36eb5a04aa90834f3f33ba4e630e5345cfe522b910f5d9d954e6c16d4f7, 0x3aa47fd60fa3110a24b6eb2baeed533d06ce9ee4d4373b20f3a2eb0fa35ed926);
 (0x1c71ce37638e6d6a80c8b5a8bf5649860ba162d2ba6e7d20919cd5451113735e, 0x7880cc1c2003b2cd243dbad79aa0cfb7d40d183f447a972ce3e8fee129e406cb);
 (0x3c607a84c1df2f7d897a82f895c2cfe5120e79446c852cb1931b9e7f74cbc8d6, 0x34518ad109941a3a2384bab489dbee184987e0a1731a060cea779a86ba3cea68);
 (0x89b6cd02000bc663ff938dd616ef7f13a17fc66a638e39c310af417ffbe2da0, 0x66ef7206aa36dfd8b438defd11ca657e43cbe4a7cdbb12a3e78816f13e8ceb88);
 (0x79e9d5b60917d60f87ab5434677906d2b72862d87067a522e1eb2d6fc2c9fdb, 0x16512951d2240a453126ca9450bfa225640064fca385c7583901381c04c78797)];
[(0x5e9ac4ab2f4a3c3526e1317f913d69e3826fe862efd0c80d9310319170c5cbeb, 0x505f00fa8aee03ccbd2f33529ae1e4e4bcf2644fe673d0b0290ec32be5b51bab);
 (0x2e5c4ef1a12730a9788953b5079a1184a9a237b9e281f0317514b53d220ddbf6, 0x5c1731365512a3965c5d5474a84e994ee44afe8cb7ff403517cbdc4dfb54008b);
 (0xe2606a00097a415aae791b2311244cf33136b90a93aa9fd236c1f5395c68f4b, 0x2dda446c4a628f1cb38fad43d13b649b6b2b9d883b97a9890ad150dbc87749c3);
 (0x4c6c9a0e8a4ef16e4b55b6eb2e728cf2afef2d38877d5ce8770ff2867bef24ce, 0x26d5711ee5a1e88273be70d6d8b9054cc5ed2581668d5ca83eb74fd1c286ea25);
 (0x6a73b1e2a603e5fde97eb6040168ec42f0699cc8829997f59ced5142c59d25f5, 0x6ea5ccc1efdb4511057187354b075eb5fd814ebebc00f19b915c3f6ebcfaffcd);
 (0x728a71912cf9ff30cec3335c38712a0186dc63f7f7167ea22645224fa7c36d4e, 0x4ce95d59305cda0f62dd69c1a39357c7d2ff5e9ac64584f38fc923d52809448c);
 (0x5ca076f131f17330b476512bd0c5b4db4d34765a46b672dc794544cb218af30c, 0x314d831f8052d08837917b9ee34cea2d110db638bd1859d0d33c4971a4ebf223);
 (0x599ba21b65ffb36cf3151c6e8662aa6c8b35948435819669d60cd77227507e92, 0x7f59b350f668c2b6797e53f3fcdf6ddd497ca01445f6e3bbbfa50c48865a9e2)];
[(0x3328bc121616a9477165ed282053d203c24f4826076c638a2c6723d42c9bfadb, 0x2bbf3f26c21b5cb273e5f4f0114c6718c5eb7291939b7697c74333cdfafac039);
 (0x3646a62ad82bd1f37a32412d71c1de8314637eea177267a0a5176fc37c90a733, 0x24dd06031fdaa9e8e94d73adc700ca86da20ea738f7dd05c088bb8f97c6bccac);
 (0x65a10ff6a067cb76b0b02af443c57243e6e78fa83379224172f3143712372646, 0x3607014f6a64ecbe1cbc8f1e297eecc6b94b13509c41e5d55ea669777c684d1b);
 (0x3c0c1e7beb87a53457a69c0f5985dcbee21e0acb65aca9eed7a52a980a61b29c, 0x74e826b2f1347631922c45546e2f1973ff349a34c6939e4bf0a0b50d6384bd2f);
 (0x579ac4b5218480a533397a94f4d3103725e654d0a8a53c31642748fe1a825c77, 0x62bfb93d6971cafcee57119862fc77423e0a1cb064fa2d095ae2b413d28a281d);
 (0x61eee376f0dc885c9e95a047434c8072d23e2a4df019163a72119eaf801c2154, 0x1f2abf8d3ed6ec53f47428c9c745e01b8aaf781928f25cb833a97efbf8b38931);
 (0x3d12191c75243c03d0861ac632e434b3e88c30e657b6ace19257114d8a25906c, 0x467965880e34c78bc99b4e3c57eb5e3cc07fb918632c5fdbc5c44e5e9acdfe83);
 (0x53b1cdfe23ed553c0443b14bbba2119b58cd8c555ea7bde6c0cc4c0c6d90670a, 0x5ca6df45ad9630e4b8d5732bd06e5008a2677a342904fc587238af01f575fb05)];
[(0x1074ff0267662dc2b4ce65aaa0229c375a3d0d843ce9349233949581c869b64c, 0x299be0decb680ec28923da4d049770107d42c180b460da13a7b1efc7e6d5b022);
 (0x3e63c4ae42121958f28e78e557e827a108156a81cc8b5c64362e2b362a42fe33, 0x3599286aac87e88c8c857059a5edbac1265bc15c047cb18502ae80caa79c9678);
 (0x1eade2fa113b19d45106b3018d462efb62e3e4cd9fde382880da87be2808049f, 0x6cc8d8212e6cca64a97c8d6d8055434354879c85b780644e70a3ae0a699920a0);
 (0x31ddffcb76711dd76c6b48540967ab52ceb13e466fc3b2a44fc17508ad074a91, 0x221c9b9a258e4d271a0176119764072e484a3895d0508874076f36f0fdfa8836);
 (0x4af6009911d4f531a9ff4cfb6949f6e0becb4c0c8d61c0a9539dd57ccf82cd76, 0x1ea69bf6f0ee10457e3ed9ec0a54fa577c695e93a320cb086fe9a6e40365167c);
 (0x1ed4bfcc333a75f7fa18b2fabed6f3fd969279b611d11b8de6b7a92bd11bba55, 0x73d969f556be73a2317109388e0a18c9f9a0ff26b34b97818cc3506e47909a5f);
 (0x3a4ba693d760ae2bc9a2c8e4241f9ed15c258b50162a3665c333683fcba71031, 0x438b99022fc522fd174dbcba6422821762ba1d0120aa1ff9790f961ef3ecbb5d);
 (0x6b265507695b3cb34c25cc44a95dd559ec0245102bad71a3765eac0f0ebd57be, 0x3f7f093597acebfdca9d151e67d5802b991dd62f822a757af9e32951a7d46b30)];
[(0x75d942c04210dcde5d1bd4fabfc732d3f95568e399382c0423c83c41cb05dc3f, 0x696cc14856cdc13c8fd7e2c5771731cbf38e3fad47a424679765c4874e35ab2d);
 (0x6d12e0dd1cd8bd76ad5a191a61920fd4a3c317245e8bb210df90a57b885fae14, 0xd5c9e4b74fde7802a0b836724057a5b810f20f7dac4675a4d24a3028f70bd8e);
 (0x7d04264e36e8889ec5d591851013b99f3fa909b44e6b6d1c823b9f2d199b0017, 0x6cc9f269424b827f9c777978a9a333fabc278f15bf93fd8de1a3319ae930f866);
 (0x16c1556c9a2bc1af0b11cf369581a12d063081ad20f83407e1ebfba21f5fd594, 0x23e38cd5158b0f891e19adebe973b5b805b393deb8cf11d7281335745ef14f36);
 (0x1723bcb3e1d150c695796bfce98ed8d56ceba30daa119302db211af2b10518f5, 0x5d4ba682e08ebb23403980db0c7ebd78aaf775fb480250f556e689807682b3ea);
 (0x456bdf4c7423eb00e4455b4a695e9574304fbfc4aaa7a01593570fe618e77933, 0x579782c36c68e87c2bb0378ee474638079c7d097349b5c29c0dd0b42c46c2997);
 (0x2269a46cdf0aa2113b456bbb165d9e458d4588a83ab75cf5852ea339f4412193, 0x489cf3771fa997f21b8a11d9d82e1fa1cea1e03841ffdfc027b68f85514c514e);
 (0x66e632db15cc9b7695e73e2b94033b8d25fca89b99ef5e24436b804bb683be22, 0x534e3c9c194cccc190ffea06f048e7a6f65e6d5c7ef6074693fad6a6134af084)];
[(0x7511066c0e12105a7b937c7ecef367d5afe6e621e5cabf4e490b09b7ada7ee07, 0x604df365b8391cbca8848f88daa700b770da5bb136f70bfb0a3ea33ba386fcd5);
 (0x668d5960c0b43b91185fc90d18ad46a4515235c7185bd5254981d26ae8619807, 0x7a66f757c21900b1e93c86e682114de2b5d3a248850958d957ae246e53791b03);
 (0x158af2b74882820fe0d48c352012a9c0e72508f00f08b496b362d8352e175264, 0x627e7cd734b0381d7d75cffa833aeed64d2e0228cd3795254c72530bd1561746);
 (0x5089c58085e74644f85e2d03ef0759218dff976d9e8db4ca9f9522d70389e30f, 0x50cab959cb2b604196fa7ab73094347badcb954ec320fa01522986248653d88b);
 (0x7d5f6473e7c2f3943b367cec6de48d986dc0cea56b0f6cff9b5940abde7555f6, 0x3c49c73bc2ba82e625b27d7d595063f58544f85577b49be10061179993df2540);
 (0x5dde3f530354c53c981ddbf84741ec31fee533b10f88b9da312a4e97e3f868a1, 0x759527498e0c4f3629c2c5cdeace1048c641349374822f8aed2c84800427a7c8);
 (0x3d5a995a523d9d0503bd7090da2084f7f34481462bcbb3ffda87f4fbb4aa85b4, 0x706663d330b1d1a7534a73a725eb5d2bffcd5f6ac4a613b190ecb566edf58220);
 (0x761affb1e0d408002cc427dc6fff611536e2b989b0a5f94883a1b23789b5bc2, 0x3a6d110e6070153b7c42102c6dac97695b4a45872cc47c04392ea170812fe6b0)];
[(0x28bd38d44030dd9ca028b2a2f31a795f4c7a5e85a785df7847e3d525e99d4787, 0x552dd7405c4183733ad3c4e7ccb999b4fed81b7a4444aab499d41d6d78d5bbfc);
 (0xec8fe27a51e6f75d4197b4711b5f17d8fc023224426a7a17d3fdce55f7be126, 0x3de83daf93d8aa7f7675b8df61c07b3c1cf8fe6b81327c3db1ed2cefab3d11d3);
 (0x190bb443a02d3cd6de2f5e1779b552a0efff52516904ceef9b827eb68d4e5bfd, 0x5a601f556239715dc181f5303a8bb714a3e0f2f22fea2d51189ef417484861c0);
 (0x393fb3d0b216d7a5f48da1dbe2fae37c1863636e599d725b0a4ddb6c768a89e5, 0x4e2107bc674405da517bd3ef9605b5ef6bf72e94c7963a80241776f56c0960ce);
 (0x30d3831392a57aeefb5ee5a2459e4d493d45a8933070387e8f0e9d00957c9907, 0x50e644a29bc8581ce7dc02008f6002ec89843fb2229e3afb82edcc64cff559b9);
 (0x18b612324ccfb5f047ad256dc97f916cd76fcb9b9579f9ebdd1f3d7b00d6838c, 0x4b6dafa36309cc7dd128036930b3d3617474f1760d0d1da20553d75788f5a8bf);
 (0x6e847af3ae32676a9cea02217661091b33b24bfe6073c4b1d587b2eca0b600c4, 0x362ea253baea269bc955b28365bbb4e83a6751cdeb917476e0d999f7a2182148);
 (0x1edff13d99073e0e6441de58438feb37c6e1eaa3103197eb7d22deb9216f73e9, 0x2e42eb00cbc19262a6caf1a51809d26674c878d718cd86a9e4e20617c243adf8)];
[(0x5830f025f1078d408948f73096af97de1e9e70b3be85890acb21132c34ff961f, 0x67d451752c2433ffe66e47242e301e56db2b2f8203553cab9de717e25793d41e);
 (0x19929124ab5779c9a99e2d1716d8c07813132b29c69a3c1ed1f4e15da1d9062b, 0x52c0cbef541fe80c1e9b999483041e79950a13c4424073607d4975a69ca1fb69);
 (0x633198a5af64eb253d99ab970c5962bdd15e0aea2cc5bc27439b720f2c76158f, 0x888e9e9da049e768f20844740c28268f1ec273d0307cbbc4dc40de64a7b0c18);
 (0x849c9e6da66d17bbf08dfdd339cf0c074ed671a2ed91dcf7a6a8737a1738914, 0x9f4dcbc5ae50392c92faf402cc4f17a92573a80d42e5a4c21de0ab0555edde9);
 (0x1deb18e4d05b2cdded11b25b88d03907396596ecdafe8685c8a5cd31fd1e41bf, 0x4ac1d5c8cb78e44196a3f4bb6a0a807210348f2159fe69903a820912f604fd5f);
 (0x1e0990d03bcf64411334692cffd1efcdfd0c997e8fb4ad4a938086057c2be1f3, 0xea9350f1881f5ea52c029b67d6284268ca29987345caa15f4aa45e680d6459d);
 (0x1cb7a40c1d8d48c456fd58d2486de95c65763a1ea5574c60f22bd3fb9791b943, 0x2835019689be911d2041a2a561ccecc3137a695249acce48383edbaec67ef776);
 (0x3dec05fa937adb1796e9d70e892ae0f4636b0b2f1e35444525f946d7c7220e7, 0x15949f784d8472f5691129fee55afc39462588c4a4ca4f146d1c271cc6375515)]].
(** eight doublings from the start of each row: 2R, 4R, ..., 256R *)
Definition dbl_pts : list (list (Z * Z)) := [
[(0x36ab384c9f5a046c3d043b7d1833e7ac080d8e4515d7a45f83c5a14e2843ce0e, 0x2260cdf3092329c21da25ee8c9a21f5697390f51643851560e5f46ae6af8a3c9);
 (0x203da8db56cff1468325d4b87a3520f91a739ec193ce1547493aa657c4c9f870, 0x47d0e827cb1595e1470eb88580d5716c4cf22832ea2f0ff0df38ab61ca32112f);
 (0x6742e15f97d771b642862d5cf84ecf93eb3ac67b80698b993b87fdbc08a584c8, 0x21d30600c9e573796ead6f09668af38f81783cfc621ee4931e2f5ba9fc37b9b4);
 (0x23a4860627e53aeeb8e22b1508249c9109578d33e7bf237459b2596d6c28f9f8, 0x709696f2827fc3729f980f2e3aad6e78b06a11ff8e079c27d87aab37c16727eb);
 (0x39cf6c6917421af98582561d0b39567de6033190f97852fc4fdd40f6977e4f26, 0x4434a90ee12cce6b7ade93ecc0f88b78b41205e74c8c4038f92d394f3a06d269);
 (0x5fa64200bf829139cf290f9871d79a8b8e846fd6ad9d678f1517a0fb03ca40b, 0x3d199eeaf926002872f486796fa8aa4c99f1125e6e0d196afbd695af17da0926);
 (0x379dbeb1a97b5f082402eabf1ad28bb78a837aa426237a405da2495bf0cfdd87, 0x28eb9fe001ce99d063f7995348559bfc233261c134094521fda0e7ee084b86fc);
 (0x5e7e07ed4e1decbfe6e9cbc126905449d4b578fbb561576d20b8bcdd0cc2a556, 0xf55755c51f102796bf5ebaa81d3260e7d1b3d9ac127d9a80e142031566cf6c7)];
[(0x2eecbf81b3d084733331f9eefa70d42621effd9b303961d25409333c82cd340a, 0x54d2dc2da137827c4132d9b740a119b6484d4d4849e6e074b89cf764008b93e8);
 (0x6b113a52f9f3fd0590ac7cb6c8cbb37abcf147c44b2ae11d9151c7d55b4a2b68, 0x1aeb017159697e792eb8da1805519c06296595f4f57996c590954359f327c13d);
 (0x3c1ae7527612d38bb541f511fcc6283d8482afe93115b345ecd2bcfbbd1317f7, 0x51c91c3f9d7e57eb786116c8545f90fa67f5e8b62c32ac4512015a20711364e);
 (0x7d13c0248b891b47eb524f2692008e2f97b199bac426cb5902b9003a29ded6ea, 0x59a976ab2c01a81a91f1a56c75ccc77a9e1e9e878e9fe9c3952080a6805b20d5);
 (0x17d5a9ff7f338d8ee53c26531f9a5d4ad2718234b5d46a1435aa161031b1c9de, 0x73022287d3b73f6c43c3f9071cf0a87aac83dabd44efad1de010d564a4f6af89);
 (0x7a8bc68bf5f3ed3bed79c11bf2d6b20cb84442dfe4ae185b0c2dabc38e74b8a, 0x7249d7c47afd427018b32d20a2a81307bddc3e039574c80329aa786a22288901);
 (0x5b4fd9f4a9a79b1f34a4c426c1a467d36560338b1a5457e83254935c2b32ff02, 0x40ebd1230468fbf85a49aa47278ec1375a3cf9c2ecc5bbdf685b265433b08d46);
 (0x5de7faa2ee4e70132f541f79ca07cd54a39fe1347a6844d19e9d678a8411a565, 0x2c9f23641e1c2e0aab8ea9926b432d92c0e8bc08901d6ff6df85e4cef854ec36)];
[(0x74e337a01c13b537323663602811d1d532d8747e81489415271411b172d04f27, 0x8648f02b3a4daf96ecffabdbaf3599fb2ee85dae253b2c21ce66796114e25f1);
 (0x6a6fbd51efa6a855e82cb0142325ba473fd7554aba208a400737475464f29434, 0x16f5f8529f55fc2b7cf811161d7870ade1d1617e52c3c4f579ea06b27616d671);
 (0x243eb188de73a5549b32c39d2ef1b29623709a9ead4c0e240314e0c5f69a9634, 0x3779298951f452d801eb7a0b7eb224cca2dbef041081cfa582afb25b1f4ce2f6);
 (0x6b349eebfed4dad4a805b63a6ed2231a565cda752d9477ff427dd9a8c9ab5ed, 0x7a09289ff3e1f9aab68aa374c48df65f550c2323607b97744dee990608b64f8);
 (0x482a4cdf57d9eadaab1c92b8edd4d15f66a39c16b2ebaaf9ec314ac0199c4f7d, 0x7391de4381c2f7a80b3c5fc6145192983f115fa525e4fd6abd513b116e4eb04b);
 (0x3bad86defe0d244dcc4b246c137dcc68bf6b733d1fff688f33431f2a339f8f3c, 0x2de3cdf2fa86ba8c2b899f9fc04b8d5384145c3f68ea9b6ee05373dc01815179);
 (0x45afc85dc571ed1bd5e8115a9622d44627cf19fc4a8626e7b754b005cb75be54, 0x6c0c8abfa60bfc771e39a18f57b8142f7adbcf220b81ee2339809e4957777b40);
 (0xaf367956af630266b1cc760154256ed79da960dddca9d72a1e8cf27d8d43a77, 0x21108d900134d3b3708dd28ace96b0b23dda9100e4b6a62a8131bd2f2ba408c5)];
[(0x2b760154fc5ceb5a64141345f55b1b57e5b0b1d6c5a07dea8ddf074fbae70d33, 0x7dc81af96fed42e0373411203fa2ced7629fb2eb6a2054e24afe3696afc20c02);
 (0x67dbc33418bbcd3878489398639484b6d6fa42f875b8c5af23bc92c69c5bdb6b, 0x38436fdf8589a33059fc92e7ca7aa2250cc9ea48391b1e517c6fb056093af396);
 (0x29ea44a50a4b47b8b3dffa01dc5f2271d5439ba8a82a6ec0c454e9bd19448479, 0x6c775ac8ab2eda8cbbdb4bd1196ab24630ac6c1f97389de19e9d5f63af509005);
 (0x1e45a60140a3b2dee9b8dc6ff307154a1b410bcd38e0e38fb10b2f6da1afbe2b, 0xe730da473dffd60d2f3241a85e68acb47d26e5043ad047d893f072c8dda0a76);
 (0x61708161cb4660ff22c3c1eaafb1414244579864b07e73fb9bcd90aabec9935d, 0x38d6936d12e8157c0621bd2d8fdf95a1f84987ee724e0c98f5c4cd21feb9820d);
 (0x48f451397792915909604c632c838021641749a67fb8e91301427defd951f791, 0x315385d3bd5a22b69068de89e52a3126525be7da886d693e99ff2f088322d560);
 (0x7956a04df862178ee4c705ffbd30f9dcbccdfc7abe362f2c1da24b3cf9dcced8, 0x5eeac17f2e772f551e761978b395b6ddea37a16aa33cff34a30a8453baf6e782);
 (0x4d1e116d136158c5ddabd4276832800f2c081c1072de6f2d931797a46abc0cbb, 0x6d415be49d4e35b65cc51354b5008f8c43e84b7b5e8a4b84f44e1efb10c9b91a)];
[(0x4b5bae5a77a867ddbee3944524f8e2ec8c2a6172c14bd432cd42148248127d15, 0x739476e0b38471219875a4580e6742ecb6aecba57b8c0fa0d923b8de209a77cb);
 (0x33bfa90cc1b9df13e106ffcf6ca898d06b22d51df337243bf85b3f232869fcdf, 0x53b120db6327cae59fa5fff109017d2df4acef01d2f10981439d824fb2da81d9);
 (0x444929347c2ded029bc19558b0f69a4492017a9c35b370711e08222bc0b9efc6, 0x77785ec5cbbdabd645a3251e7da57c8ffc39158c0d7b25a4211c2aff2e1d6245);
 (0x2b6b892ae94b454b2c2d92bb947fc4d506d173d281779c2c153c001ded42d3d0, 0x7f1cf64e0e180fc4d6e12c1b5c5285f376e979616a52c94a0dea4d48c5880cd2);
 (0x1b9175b7fc19a618d5848c5761c2b760529e3eaaac087b51112b1fcb422e04b4, 0x1730a59fff4717e258cc853dece7c5f70ecb52cc35320a53cc3838c844ca68e8);
 (0x1371cf67fe47f8ef91246ae0485874d601e31984d854224569ac29e56a6ee87, 0x71cad7d8350661ce798e332a98ee5b62f8431fd9ac5a4a48856ce9c4c5b64c73);
 (0x63bd671eca1e6accd0f980845b163ca4e927d2a74d198e78cccd8fcaa6aed372, 0x460cc32f5d27a15f4294faa20a99112392cdbdc8515e9caa1ff4887d22a6e7b);
 (0xf6c3a96e0032a9394337a02ffb2c83ba70efb8f566feab530fc90fa3b4710e5, 0x3d4e97e286378675038a4b58e84224ee515e1d6697ac79389f78479be167635a)];
[(0x3b13c71c2a90bd24c51df6bd138c5d16208a9ceaaa8eb34a69469fade6abb440, 0x14890a7ab24817b2bba826792e8fd342a6f705af800252616435be180d16dc54);
 (0x184b48cb455000542259174da9a6eb83a928b2835182278abb6ec091e388a820, 0x3ee0e07a03dc33a9dd60c2682380ef736679a5e383faf453fe324dba26e77c33);
 (0x5a04ae1195edf508262196e9d23c259c937f81769b2258542b78e3c0fb135c34, 0x676667092118acccece87e75f0a6825c5952f92dd499943efe831f9712c5e8b9);
 (0x52ee53b981dfbc41ddaa5ddc2754c4175f4811aa45f8e2b19a425657c238a83e, 0x7eb0a1be3400dec87b388cad51613957643cdf0595b891cc6f925fb36da7f1c3);
 (0x501fe138924e05cc1a05129d241e6b5e9d46cd8b0bed38eb42ee20678a1d2425, 0x2f8022ecede0189c215882ca856dae0f7b4daf6675181a558ebd11e6911cee4e);
 (0x2d8294fd94996032b73b4f09a0ff645ce8db39db5463f0fc57156a1d390a3b68, 0x3a8a6faa67c6dd905a4fdeb95ac127c9fde3ac017c847ceadb2c55f1445af624);
 (0x56857d02674276af0099d63b04a39544a23b841cb2ef18688ba9500361e4da1d, 0xb543a6720e318d2647915bcd619efcdedcf7fed0657be45d27db284290e72ce);
 (0x52a837bc7a7bc9459bcc2ecf80f74d9ed99def0342e18cfbe8e799fbc504fd52, 0x50d6460185d8924e5485f23f36a98c86053514d163547adab6fe91478a411196)];
[(0x3f30ee695b236bc74620afb10469324b45c8201a45cbd6954239e64086f3cd53, 0x414231531dd52e5555640faeae608c4a0c205a04f56d187ba80855dbc0478370);
 (0xebc38c54fd6aa12dcc60ca5c72ed865b7c35a6bfcf98778c235307d306de6e4, 0x4b3a1d9f2ef40fdb3e31ddd56a08526dbda15a4f58d78162c7bf23886763ce2);
 (0x3b75696730dc8d8cfb7ddb23241cc7ce78a13e6a377db5da527a1058e60e49db, 0x34d031744cd2d9cfef9f9ea654000016fb3e8b4a8c44198760f46016166deaa9);
 (0x6b2bd5d00fab38ceca21a27d6aaec82626b14b555d859527718f8ca404eba4, 0x727340c27a15f6ab3d80547f0827c56ab1ba33bc30d1ef3909ea9a3af10c67e5);
 (0x1f4e8938dcf3a6d5907d88572bfb36a8191aa9d05bae8f68d3f120ea165b2bd8, 0x5a8b0c6f649f8e191aeeca653774a6ddfc8cf8ae3d4d232e2148433b9bda19cc);
 (0x8fe8df51b345989553484e20f600c2e46f4ed256f3c8dcc1615b872f0c2b925, 0x2738e06810f4cec5d894c91432edeab5ba632e54d06f494b751bba44bc93abf8);
 (0x1a2403cc5ef2ad62b4f09afac79a48a5ba8ef74f3321b65a716164d49b141c74, 0x7779fbcd8be50c9b021180ac97a544ad0c21cd1f3bd263ce5903b9afe4fd76f5);
 (0x71dd75fe35761c01a48597ec730bc33237902fd4ad8612cbed1031eebdf40de4, 0x39674a4532078e34378667beae5cb55f814ead9bbaf7e01b3b69533e9f88a411)];
[(0x300d6b0bd6734e6170b814d2f28c82de4a2debb1c5589bc8b2671e0320587090, 0x40ca073d0343190c7f042b83c7bcabd3fa997de98f4bf0e2bdc4a7bf5c55fc81);
 (0x42545a6a59885c28266ae07652d24503c2fb5830c85817f6963981168cbec8f9, 0x706406cdbd1ce0bdbd9ea269bab2e060b129d6da0f1e6983fb9b15672c2eb507);
 (0x6c1262e3f8a43b517673a0ce209f76cb22d7cd7e54fce6ac235711e441703a02, 0x193841cf1e0f528b9a8d508a276202a84f1fb096c5ed013a7f486f0d269c007f);
 (0x57426aefc21be9ccf162e23d25ac3002ba8534351e65613f870f690f2fd46cf5, 0x6b45b002fb4e8a6f59a6ffb006ed71f75434217333b266325204c7d1ac2e1f34);
 (0x205aa3463e7e41af60f5cff4853fbd6f748aa1b132fe5308807d22c5030b48f5, 0x320b08e8ec6153e2be9955058bd26993bf50353e040c556ef8976663448735aa);
 (0x592c8b8843ca1f7d9ee692d5e29bc1612b0a98bea402c5c2e1e8253b65feea37, 0x42a352d8dc52fef9017cbe617cdbee3aaefed1935aa62f8679af6f2a1d00b5e0);
 (0x41c030fbca90151ce0d0064a815e03825ed77a4ac634604ac7137bd3713af22, 0x72467625ee43fb7ac67dc71c655e5c16e4e97c2a3d4445e7e9b33fcf0780f989);
 (0x6222bd88bf2df9d5d44b60cfb4a08a960078db7ed51a35eb3e0b6b8ff4eda202, 0x325bb42ea4ed025dd6bdaed261b7c4f5410b608ba902b068f1efa5782e45313)];
[(0x23bc7abc84cb4c4ae5fa62b25a0a8114e8406d9bb93f2091142aa2d8bdba597, 0x4d2b97a739eceb14c95020371d7206e904f94b8f2c620dceed8511df0f29c9ee);
 (0x6d5066cf7137b4a5980aa453b672c84797fc6856f0ef5cf0c4be33fbbd39d169, 0x54bb8cd82a0a87c883abe35abeb81857f95200b4222ea95b5cb347115219a417);
 (0x6b66159ac8702d4e34073b76629deab2d3aa50942db5b00e4a73e8be859362a9, 0x19dd4bef38efd504e49b3a5d584432b9ce630883226031e75fee1a22c8ca96c5);
 (0x71ac99647b61b9eca6f0c23432a518f738aee708d5932d4ef0f172240250a226, 0x3a96c2c028ebe5f48913be30147e41bc5e1cab9595d5404138a9aa1b5574cf25);
 (0x221b138a1bbb6548d2ef719bbaee436114e7cb6b3225dfb94c327667ec45772b, 0x7951b295fab7fbffa46c08f6979bb32060974fb037bf5998d0ba5a38180cad84);
 (0x1c1b0d95db6a057eb34f28beeda9f6bbb5315285de2804d15c3b186bdb3f5c28, 0x57bd5de4e0056cbb4d98abef9d1e0ed6cab1628ac08e36073e31d00a9ac3c5d5);
 (0x4f846fad2eefb8c948a8bd3a87d8b4dfa0a0ab643e724ebb1c91437c567c9f47, 0xa2640ccde505da1aa9227bacaca13d49a67a199f0e16aa9f86c2a7e1bf02d2d);
 (0x1f6a1fd8cc0e05b2742ba0fc0369b5247670543637dd033e64dbce90b2f23e9f, 0x779964401ee869a9b31c0ef874a86440ba85d25c2ce932bd31a0865869605e19)];
[(0x6f0a87af6e0f4a05fa7067cfecd4f98dada3791f714a66648dbb5cbbfd4f326c, 0x6b6013813505927dcbcb6a42e887cc1d5fca175e4cd226be6009248c6c6e36c6);
 (0x1f90c7ef4610dd083b3d64bac47574d9da326b536b9a6eb0f6c3134a847a0564, 0x63344ccbe4169ab97a13c3ccb097c0f4fdffbcf6284412303c79a1c8ce3a2f7b);
 (0x47ac42e7c59481a928348d7aaaade88b00b7aae4e73ebe0dd20e33092dd34e07, 0x28a6c1d1356c10ebea15cbfd161ae974f3b2a4f51ed06403c2f09bb58f7a8924);
 (0x22e2c039067920c42980dcb3a905fc91601c2b34e819ce1532ada4a5fc39d5cc, 0x631cf9945a09bf26d7e595b3f8e3390696870512820df63c5418577089e1a8bb);
 (0x1a62e85ba4a14a3f24f9dca8529ca842f5c7f18a3f429886d6b13673649ad53d, 0x1f6d17d9a1e5c5d8cbb98100757e5183551d00091183e6a5e1eb0dd514c8bdc5);
 (0x36b566a2c0f8e36e760992eb83d509238731939dd9dd0d19513f52e1e9e4f9ea, 0x1bde4ad0433ee4e19e734c558978dd945ed244e38414387a43e70232ed39bb3a);
 (0xfc8f365bb4b04e275d358bd3c277745c565eedff84179ee72cbc5a3e38fe7b2, 0x16f91c8191db1e7817455b6a395de2b0f4396697920ba0cd4874e2b534937b24);
 (0x608de273a9f6a534219d7aaede3cf65a81e4dc03d7a2765eced1d2b7be4610f4, 0x3b31d0113f98d81ab1312fb2837aa9c8dcc7960f84eb371358c6d841f67144fa)];
[(0x8d1e75a33bf363f2ef64faa0ab5f9582d1181b793ec9452ea93a3011634d581, 0x47dd939350f06a41ea9c3d889d127155d0275926d05b5bc43977b5ccae42cf1a);
 (0xb2fcb60a19e6a0a29bcc1e5224ee0acfd648e6ee2143f90a5f5aa1c6d51c96f, 0x6301b568e9c613866d76b4c693de25e83435344795fb78c3c5e944a1f33239dc);
 (0xb216ceec26c5cc827ebff75a3b41630d8925bcf8ae53c7dea348f4c0dd3ae27, 0x563053b0dec5518f24c57a3f9138916ec287602e8a557819ad77aa2a5312bac3);
 (0x3f748617ca63ab3e44c6e34f63e7328ea56a2a146da34368a57dca181254fe02, 0xfed89e6420fc47b3938a2891ba9acee4cbb2899ee4e9ca15a13dc527dc1641e);
 (0x8f050e6e4bbb5e43b756c82a0ffd60723f78c3fdfb49c50378a1083808c3cf3, 0x38900048f0768542b4b9354736b6880632a94601a17a15adf4f233924875ee62);
 (0x2583374456f20c85e78e820263e1507524897a5232050bd0ebfc357d04b900bd, 0x62d1c4fffd5ac72c7e7dd52c2bc9ea4077ebb7032a39291e0212da60cbcea18f);
 (0x5b4079d8c7a5a10bb68984233b2726bd95196ae2b50e6052441fc4e5b98881d, 0x2329432253e9aa57901c1369e57e54e4a363d2cfe69069108c833fa8d79f612f);
 (0x69d98b5ecc35d56c97c0bf312955d199befe116b417d70f5f57e2dfd0af81ce5, 0x3e26d487fbfe36ab44e0ca3b248fe94bce92a69b8154d50e2d5481f8259f4e8e)];
[(0x62a8a839f45660759f741c7892703326e4ad11bd9e102c0770af6ad49dd4b6d9, 0x3d45d6c61b8a03c29d11cb1e9660112995fd3bc8c1553ae897448b613555bf3b);
 (0x4e1c036204e123f311e8da4e3fa212fcf0acafbded425b71a66b0dccb2500e7e, 0x6a5908d961f00a62a2ac904fd824f6932f0e735f257a7d0d273d61736f1bb1c8);
 (0x7fe8906b455e9f3a49464810d3e6b8e5fef5d17226ddea3b18f08e2ff8552d6f, 0x1300ff9d28f135030203b137ea4a3ec18d5dd0dd6b29a6ee7040b97b336976d3);
 (0x1e34443347f9e627b3531157faab6eaca1bc3114df4a1423cc12bf8417b5d622, 0x295955a5ed061eca7f87b9485666ba9489ec20a9c484224dc920350bb4a6fc79);
 (0x4cab819c06b2f861b4be5b06a918bc314bf29f56cff389ae2ba8abd5f1f5e156, 0x1f10fb18bd5ecfe633b53936f70ce8e58b6a864e679297770f2b38160176681f);
 (0x7c686b90cf6ff6a3a59cc7d8a5e00a2c9b2204decf83f96bb56b53ef630df083, 0xf1deab1d3a4a3d2528d9103d118fafda873ccf0a518c45821d51a7fd71533);
 (0xaecf4e5a0c4c4da709921a44dca45965f89a3215bb5445cf72dddf4ade53a2c, 0x19304020c00e6169712d6050734bf5c51bd0af80b5ba4a6a0ba008e965216807);
 (0x51f4ff8c599b1c96da82941520a9f5abf4a31eb8b84fc95056145ceb3b5775d0, 0x35ac9588d46e41f3f6f99aee3852eeb4b12e807807d4bd1b7f8406b0d7863ac1)];
[(0x568de690133ca63f63c08161d852682fa5696c0ee66bf8f3ec729b6a71bf9741, 0x4c48220992e8e64741dcdc433a0e65b43a5bae7f4d743e3d1bfdb123773039e8);
 (0x3342c4717d55221def46b89fdd237cf4e9528170f9b524bc6e730cc4663403da, 0x50676cdf00c935368d54ccf1fa7dd2671cd7ea46686e61fca49dc6a85b6937c5);
 (0x3396978bfc50b33d58eb8dccc52201ef36dfd27b914d8aa86f6ba45d29424d9a, 0x5ccf1359113c127dcb9d35bf9107cccb453eac7ca7ddbdabb1d0ca4ac8073393);
 (0x3faa2a093a19a02424f65a10955101f4dc015c43b2dfce8e001507abd741b845, 0x7a1de10dacfda389ca663b15574bdc8ae8c5b6e7cee647e77b11ddbfc6eb8edc);
 (0x30f9cd3076c51c96a9baeda10ec893105d920f022947716064e32717aee8e3c5, 0x2caedfaa420120c6711921684f9f5a2b8079045fbf3a4efd7e4fa7bc8cbdb095);
 (0x6070951e96e618be7d750fa819593ecbfe9c26972471ebed72c093714b7e6e90, 0x7bb8b8086b2c8f273841de642871dc22c7adb51944d64304c0fe5f4c1d3e6689);
 (0x1ec0eb040164dd81f57ebc3a26c3e8606154303a1e5de3af27b1afd99d27703d, 0x3df62c38b3077c694268ed7aae9a3329999e190eb81f07326e5cc3a1d1a42cda);
 (0x1924416956ea2c1269062588569b18178011ea7cba1a3266284f48aa01d5a90f, 0xc8e28127b7dcdd206fb6fee96eb88cfc7db7319826ac8cdb8b1fb8adaf021de)];
[(0x2898ffaab663ed49ec57038cecd898fb84076bf49bf6f5c4403aff28ce974493, 0x94f3b96ab6c9477e759d6bcb9934557e613a0f4fa4fb6c6f4b3bc46f335163d);
 (0x34e2ddf5115701105d5d590f6617ccd7716c01b247948470c1514f12016bf75a, 0x1bdaea88b78eb71777558f7452cd868e6d7fc33a0f85c3d2038bac585c1fd926);
 (0x4cb56bd83d7bb25558c34ece98dd878ca5fe850aa79f4bf656269fedfe165cc8, 0x5d1f6fb463251914535bd81a9f9a8aea4d5ea5309b86c4eb8fb4a7fa15a03865);
 (0x49761c57ce3c8c4f1435d495903e2f536f3be3712e76af8d0b5a8b7d1ebc8fac, 0x3225035e1065094ef32d7f3e7a6f8ff2748025f96e0c0b44eb35576b61e150a8);
 (0x654b39f4650804bfb7c76a3d254377050002240e2f794f8de21de5640fdc60a9, 0x50ce7be2f1011218849a34ce62654414a8dcaea8b4db9b45dce3b76a6b121996);
 (0x91605b338ea1bd98bdfae06ba25bd540525a3b02efa65df30de5c6e8c637d0f, 0x1df405521e9a2232baf654aa3d2f66bdd6d57fd5bac96f5aa5f8ad2864bf8cc7);
 (0x4606fdec56d46970938a8f9fa5f24624f5b9c6f488b72cb1fc87e4feebbb1faa, 0xf00d9e6656d8243e0350fa5b89beefa58e9af955ed650a6d90cce344ecf664e);
 (0x4339fa86a23242851a16afc3ab05b352a7b4bf53599a49dd7e29d364fc3a757b, 0x6d07cc3462bae9160bbebb997510817040767faa9dbd13f158a5fe8a63a34b0e)];
[(0x62332ee4f8ee5e56398dd304eca6ffbcde556467ba2c0d5fabb64e9736c701eb, 0x3e1bfb3c0218cf9f7e6a2f47f179f29b0ad68235929b4921fda74bc89fb8ef65);
 (0x7b9e0081b2e20f4f3d3f6d57f7bf977b2f192142a2a9e40b1aacd15140c88b2f, 0x93854716ef9794d2057036ff3f97da686fa3a1784c42279e8abf1fcc42b858c);
 (0x7ecfa6b215265291f32d21771e88699aac3133fdb93ef3a479f95e2fa8742940, 0x10958b5cdaf36afe557b7e60184207ce6d81883edf035bea63cb7da46c4720c6);
 (0x6bda13918dcbaf8529d6326ae7a9c278b72417c2188c5ea4f062fc50639295fb, 0x2c3fa803b162ee887d0d97a6734866f992f846625f314117075da54bb6c20a36);
 (0x19af956d2b5b4ac28b0c67889f19ad66a40f4bca1625e2007963e8a98a70b14a, 0x5e228bb5fbae687754307287833c3245a1ab34684a5a69174f72b460ccb69d8b);
 (0x45bf322997c4469aac6d1e4251fb3490e60e7c0cd5cdd6f5cfb9bbc53587b9f1, 0x529d884884075753fd9a2f9ba021ff427fea7b9773f0d4885da5edc024c69e66);
 (0x39632228d7d1471800e549128f91a680c9a64e37ae27d919a2609ce21522c607, 0x6f59557cabbd86e8e4d546e2aae6ac26b27b671ebd049539991e9ef27e00e2e8);
 (0x4da4821314574d4fed4dcf692c8b15b99b73f13633210333ce7871359b6e6424, 0x314016034673d2d20529bc93a2dab6e462bcb5f66e1f4a6bf2170759a40a6e65)];
[(0x22423cb8e82129da6655d94354181feb5b1c789806240b135c4da1bd156d734c, 0x627dcf9be9be798eb639f6b776ce9ef34573c7a7f1d1ed220b1a23156f08cdb4);
 (0x4230253b946f9c176ea49e7fe2b913a35738999750b1e21555104dcab320bb4, 0x4db9dd92f8d939e6e4d0b0245ef57a62d793b173e977b8fa69558741d1e5afc);
 (0x63b06e648bf7aa8e8bbf75c0f3e0bc5d438683b063be9f4f09de91589756d7c0, 0x1b17d88ed99541bf1b2cfd50b7d4d87ffd627bb708d0c2445c68249be08bae16);
 (0xb2cea0029ee963c0034b61bf19e384435f14554a7d297b5144838c38e375586, 0x47ea95da28d39aaade5edb8ed941c687603cfdd1508776e96d6683199e99daea);
 (0x6e3d157d1cd96bb4ed4cb069497e6041334d698b1640a59a44a45cde613aabd, 0x72f5ce3c9ce0c93d9339b91978f1d9c688b56b3a3850627c7d7f93c427456c7a);
 (0x1f13202c95083f854583ff4cda13ef4b1e745a880460850e59e22c567d23ea24, 0x66336d356c381b7ef21109e7fdfd7ffa0085087eb55c4778ad42025c90275f48);
 (0x1d4e70e7fa35c13ec61efe8d7b8ae9e621144c1eb2454c350920e4ac81360393, 0x7b2807a91ce09ff20a518d85be729e118ae448b51763e880abd15795ddc22e61);
 (0x4c27afff3c45f32c952d3984e14e29a098e685c9c2e723e5fc8047ae60b7e824, 0x5f2c99e6526dc87d95f11eb626c29c3a90d0be1e51a4c49e5bbabd114bf5a66b)];
[(0x786be30733efdaf7a08157f7907d6ee4f6952c728fbfa269fcefd1b43224e085, 0x653a5f772f34985b34270ecdd4fd08472a7c08beb39d69be4eab0712c63e2736);
 (0x21fee4804968a933df8957815bc8dd9cc6a4d06beb4d19b36cb822f04c2eaa13, 0x500b7740072cb51d416c5da150858339bda5367a8972c2313060d3e930901700);
 (0x77fe8a5d490afb6ae4a198065e9488f8c358adacf1dd564e28b7136e1146b3df, 0x3c530f01e039f3168ac0033395218d9122acc9fe0a3545ba6d75c5afa5f50246);
 (0x53e2a4ed1bbb48bd016c524a02f797654cfc969849f867681da94e341f377534, 0x5a2334fdda642732a3c9520ce06581aa7f0f082882554c37b8d390a25a9bd559);
 (0x2618676f8fb18ef8c0ff9e057c9cca37104cbae666398a1fc8237bb34d0cb0b5, 0x2aa05b60a232ec56c8f2f51b1eb6cb7ebb2415fc4b1e8ba94ea41a235413414b);
 (0x566dcd766740cb27bccff752ad6b8fd3c2f7bf3849c1131a4ae7323ebc4f6c0a, 0x51e9f19fc00f3d398f7539196f459ef37e0ab795233ade63b5f29bbead27b0e5);
 (0x2151b330947c9f7b22fb8d7258ba6d9cd59ce0bbccb51a3e121194862414aa88, 0x2a01507ee46f38350a3dfc49fba49adc907025fcc96b237c031ed0aff23d74f6);
 (0x7b8d2c823baafe0d878a55e8af1db150dec85b1424a4901f9beffd3a6196e3d6, 0x1c45a557b3624f9b89ed15b3c3e1a065f1b453d948f7cf45d9494483f8af0c85)];
[(0x5fa2b1dfec51bcf38de2510adedcc695952f36b9900f13efb45d1c3cd099c188, 0x3f81faa56dc388bd64de21b25252d72f40d64b90bf427b8569409b7d23a1682e);
 (0x1f878c9bb777a0586a03dd7c310986d8f6ec21f7ef82642e799e668a7b47fdfb, 0x59479937cae12df41a31892ac4bf58b9c5dbeaf4e0ae1dab3421553da8e44755);
 (0x8e60479f7f51f3ab2119b5875deac32f750073264da7e554535a949c163cac7, 0x1b2b6c48c2eeadcdb2115bf4ee5f90861be7c49767ba67fc96fee1fa4b22fa46);
 (0x78877b5d8777410997dacaeea59400fc9db4421fac02c4282301c67d35fb7ffe, 0x341b46c328333e4484ce8607619014d41775c408c88856d2f9e19812d90fbf5);
 (0x1787c129a60520114b3687d43367dab6a3ba1d1c7bca7edfd2f46e4f09c210ff, 0xba4e0f55131c2b6deb4a1fa4b5d6a2b47e28908fe7dcafc1ba738da2fca96f6);
 (0x1f54318884a9a29932eb2d5aa126ed3a94fbeb7cb238538be572b8e04c6e55c, 0xb704f0aa8dd40ec8405ef01634d0dc797d01a872fae337ebd8d2159a2dbfc50);
 (0x2fcd57c067c348aee6eabd76e66d27de79846089d1e0916906ad03e940e9263f, 0x1a3da7acfabf171a0b078f4d602a67bcf8c74dfb7a284b553d86bcc7b9dcc17f);
 (0x2b556bbc070b5c4bae9e575836d1d68ee9fbe800448c0d2c233f78185eed3f91, 0x7ba01332807ebd892e00ddb368c0fa1b3f19b5b32efd90b178d984e1d7174d6f)];
[(0x3f5c47b490be4e04f8915cc5f3c1fe8e5d190bc41ed00d8f43b04444af406f1a, 0x537ce98e07428214d28bf2b41039cb54ea8da86045baaa3f077132fef32c3bb0);
 (0x614118e22068c64a823b4a570572d49131b2f8d1d8cad3a538ccdd30a8b4f85d, 0x63ebe5283599fec22b8d9733a9548505faa5a3cbb5477811b0651229478dd419);
 (0x13aea1849989ffcc18795ff824240b157052292b065060a0b3fcf4d8ef3f3fb1, 0x884949c8ca12b70fbddbff21b25e570672d6ca4106005551930c101c2b81f44);
 (0xf72556998b0044799f0fd03210ded3d984e3843bbaf3c1d5d692bc94d43c4e7, 0x16c19c5037c103d447caef4efe6bd81a490e7c668f6870f1b080863b5315df5e);
 (0x25aea0bc0827815b535d8c110e694b9247811ff43682e72a2cea9ef5e347371b, 0x5ddcc7dccc9e41754112bbfd9b9da05d50e2138b624dac59d200421105a13269);
 (0x4eecfca39170c07de4669bae23b0068d294ed225ff7949285e8270460638e3d9, 0x5e9e7c4381074bea73e24638aaac0508e76a81b70e0d5c14fb1ef6306a371262);
 (0x2884187fa61140983062669218c62a3017be9d32437760281f9b762e4f21f9fc, 0x3200426867df5f3d9f57fd086cc32a17850b08eac3492dca3ca1768af4d3ab3f);
 (0x1cd96ef237b213cd446f13b3ec40d32ecc593bc6ea71e77efc284341a5f3da1a, 0x7a626aeb91efcb5f9777264f5e17ced8b411f68c713673ef0f184a5ccd60dbe3)];
[(0x275d04f2b3510c56664a8098fafb5b4c950dec7e83f0ccc4832d810897a24a18, 0x57dd6527da326ebca62ddead9b4863daa69c1f11a39c3782c3fe2e5a06b8b93b);
 (0x3c3b6a92efb1b73a190aabdea635754eeb5ffc376b2a0787adbc2e7d31374f84, 0x126d49709e40cb07b122e980b9452a94055c87763b1a81e7eeac60396d94b23b);
 (0x3cde77866cc73b07a52a9ece4832e2a02c9a85a6709f5b9d4c711de45b556055, 0x79f2b3d77f3f44c771f685b6d3d352d7e4f20072b64efc55a957437e967a18f7);
 (0x31a75b21cb532622a7caf9e29e652ac4e47b1450edf6655acaf3797b55a7ca46, 0x77006e7cf104982f8865081a2ff8a6911546755e31c3586353b0bd0826c5d790);
 (0x507fddb828993775917eb8d147c94b420e54c787736163ee92f14ef609612181, 0x5ffa5d8998f8df1974f1133fc878d7bb58987b3ace819df0a09fd65dbec08f89);
 (0x247ab53368a2d4aff8eb158b291ea4796942c0ae4364ba270e1259e237612aa3, 0x33cbed49442e2eed384d45782a002d3dea88062b42f823b001ecab1bdd33192c);
 (0x7300f956c862bb5c5bcedbef880061a0adef30aba72e901311f8918f41e868a0, 0x116d410aa365e041a43c071511113f1a4e09cc70e39f9e245828a32d82c1603f);
 (0x543d84cb04fb2bf787b7aa382eaab5cd8d050ad8ee52aa8a285b945652014031, 0x358fdc5b63ed49e693d838f182b275846f42dd49a42ec2e6e932ba4de59ef20)];
[(0x2ac4c0386a424b4a4272506180181c6363395b4094f551f6a70e1fb4f605ea1, 0x1a36c19fc30e5e46b07b2ff0721fb77ff4330e554ffa874f0074860d7de3877);
 (0x2816f8430d466b9b65d0990c2fd6f455861fb600a505f7297c8283d3ac2cc513, 0x5452c4b45430ea383524c90ef0c66ae08745df0664ab5a184f89b17e74b47f1e);
 (0xcc495fe64bc4816637f94251df4cdee3ca74aff90c1e427744489c13fdc9fe9, 0x42138e7b6cab977efec0d3e669437ab9e0f228d3e38c1a6f6a5e06036e75198b);
 (0xa2818f5f5d8937800c30ac6b847db2cdef655b864126302249144a5a15b205a, 0x187c76a49af10851bb049ba97c0fbbb14b2621522a4e8d9670ea46e56c9a1bd6);
 (0x389973be3632bbbdac59f537aa63f28abf7a33b915d53682a9ebd7d040f794fa, 0x4d6bb19304a47533a460358e9f3eaef4b7984f8e99daf4d2ca993dd87adab32c);
 (0x68c0bfb003eeb945d29ec91ba57d6462c36b42a8fdefa5e7b99d7b97cda89d97, 0x4b0ad6be2fccb3042e2189c9f3edac9f6279599756876d246ba1d3f62c84b7ed);
 (0x3710538d7cd7971d68f19272dcfe0d7a577b7e889977526e62704dfcbe6b8c22, 0x7d10827db74ae0dc09323717542a2deaca18ab2a48a8e245e5a827ca02778853);
 (0x7efb45d3a2851109d7a8d50ddb08fe308bbf674c019b965cdad4570a141e648a, 0xfe1198b11a1bf56867091c69d71f8b7792257dda321d43652e818acd0c28cda)];
[(0x5d5225a5e2235c5216cebd1847b2ed69e45db93cf3ea8cf012ae918f2c983218, 0x7ec9e5494feecd8d348a92636b5babeec6b5ab1982778140bbeebc4e5de7b1b9);
 (0x6fde98f557e3360932b5622351886a898e4639488c2433586e6b1d729a2e5760, 0x6994510fbdad700ab9e84413c29ce02525e5b1d15be55269875bf94a48002c8b);
 (0x705bd9027e77d82d951c8205d33a5b3c3695fe7ee70833035fac2d25a9abdca2, 0x1417fa0628ebc3a194ca46d423ad4a41cff08879e02c8e51e0d6cd670c1bfec2);
 (0x472e960dd122a534f52377235350549df4a1dd7a08cfc580bff5fb4b0a70aa7b, 0x10585d04fc529fef4c0c0776154fc7ebbaedbae8a99937e47598d0578932b7cc);
 (0x3734c7d50aa73403b92723a944d6c90cec86c737774dbc4418a1a6693dccc58b, 0x416c8b45805ea84fa8247cfc6a0b0d0fcdc566e2d811adff2899f9ee663e7ef9);
 (0x3c3c51d3a301c63868a041b4210b71c3675effc0210360dbeaf2778df7ec1eef, 0x6c161ec4de54d51b1a839d13f50e0274bd11c93f722ec44ab21342ef4bd6f892);
 (0x2a4ebd1072842b788ea22727c676cce2bdb6faac56c69c28c3e694aa63e45227, 0x49b857654a0e51927bcbbd26fd2dd718c3c8d1d196a56ec950806104ef23a7ea);
 (0x4892cfff7f94ff7f07c1241e3ac4945bc46ea9d6a3c1c3adbce109a9afceb6a, 0x3ae2aa25e2555135a7a3251c11a3f8eebe81758bc1c3e2cbc6e6ca461a543130)];
[(0x60c497780d40c8b1ba4f5dc4a2262b84528083f770b07af0fa76098a9f1048b4, 0x22fa44ee0eb502084f6ca208ed0757572fa5b25d76f30b5f733840c7086cb1d4);
 (0x480d816072eb67bfb2aaa781fa5316978947e10deb8b7f3165561904a63f000f, 0x552d0f1d6bda43b57e73875b499952c016af17ac436baf671e5684a8cd33137e);
 (0x378e98824a6bc4f1f82d26f746906680086caba8f7e0902b97c482ac0bf80638, 0x114214780d621d31b86d6e60fe7b92c48ea22834753d0ae01bb23fd4b8eeb48e);
 (0x2401d311a3abfd2583f1c6aa519c1f18ff730a0abf730ddcc9c9739b04d8a85e, 0x653224f3488cae1ae19a414a9932035a2bf2c46803b5532bbb645e62387ee34d);
 (0x72964d278e0326e84801f12bfb0c0cb1edbf8bedf273e5b2b3f4ea8c3aaddde8, 0xeb4ace1c6b7220c4211bb023c76443304c2263ba1d49cf27c4d26c9603b09c8);
 (0x5aa06a8b5ddb350d8c58306257ecbf219d0070caa4f986c78fdf8e42fa9b8ed2, 0x7920277cec6d1e37a5f267d8fce232dfe38bf858973b895f2611dd200d7c58c1);
 (0xebb89efa79e3b56b75663d950362c441440ce1425792cf196234595fac0e9d0, 0xe5f7b80005248f80da7d738df4c11a70f30018d74e871780a1c82cc0adc7fce);
 (0xea2c846a535a115972161612a192588d92d68a3c9050eae91b2817b94e68325, 0x3b82a8337b05f11bbac176a113be183a50a0331f3d3116f24b971b5a8b0d031b)];
[(0x561d2c1d673a0e91876dad49d7c6a6c6ddc4068445226d2a0e777dbcd25c5f3d, 0x2dac09925d76226bdc776a3309ccecec6de6692370dbd0de19e5d2d4cf747afe);
 (0x140b6f1e4bad46896617dbbc2d4b1bedacce412cab91f0015e12dbd3eb171523, 0x444eb3598ccaff53dc272b0ed8d7543e1270b04a5da34f1822482d77b6bfce11);
 (0xa9fcf41f6ef7ccb545e615e1335443229a1822845ecc07e3921b2660f617607, 0x732fb4faed1673a8d23b79b5ab9356c18c586f395d96d2249f8ae6c384daf9dd);
 (0xfb3f87c2c6c89c65b74299b77f3736546a8b9e41b19197476bff27354e1c128, 0x1034d42c15a2bfe3e682fad49dbc2812caadf0c584bc30b51625b85d74e9d5f7);
 (0x7b6a55657786383d359c5b5f2f6cc814790f8527d9d67f6c67a5310eba46b161, 0xcb7acea0eac739a61d526f6eddb857114a32d8f09995826f1431b60663ab0d3);
 (0x5ad25870b2c161c671b014f548bfd24114e54bac5c675f43e79f100e17e5f45e, 0x65c775edcb82b0b26040f9f5ed43f8ed61ba00427fc92b50bddc94920716ba2d);
 (0x3f18362ff22f583b16d40da2f5e67645ef65016e5183a44475b3ae5c3056b6d0, 0x5cfc7a0f0d2fec43237b88efc4fb7e9f0a95b6352bd4caa918c58c1e9be02ffd);
 (0x1bc7af1e38185e7c2d8d04371c7e177d7a9ddee1b81d7d26db7ad644c7dad28d, 0x61d909d855661f2f7a5eef87795dc0491d027e12631b270fcaf2f65900314833)];
[(0x6bce245f8c2596bd228355a6bb8a3d9f2fa8975d8daa7d00799938218028354, 0x3d26989cdd0f6da0c92acd2f10754858c2c9418b0de8789496fc955188a3c065);
 (0xa09b36eb5a04aa90834f3f33ba4e630e5345cfe522b910f5d9d954e6c16d4f7, 0x3aa47fd60fa3110a24b6eb2baeed533d06ce9ee4d4373b20f3a2eb0fa35ed926);
 (0x79e9d5b60917d60f87ab5434677906d2b72862d87067a522e1eb2d6fc2c9fdb, 0x16512951d2240a453126ca9450bfa225640064fca385c7583901381c04c78797);
 (0x469d0960dbd0ef9c91c4597ccf7c209549b187ff63bd378b7dac577198d74a4d, 0xb5f21c7f86832241f2157c288bdc9394f83f8d57457f6d9f6b345e4909478cb);
 (0x5911ade9998930a4ceb0b66eb93d7e9e4d94ca0a3ae3f095c5c4ffa156776792, 0x63ad2432a173e9df4056a370db21b2625d68ad21c0030bba5b75f6fa19548f6);
 (0x10b304ff67577ecb1c73a3e405d39a64b2d4f9dd4cb4bd16a9f3729ad1939932, 0x13b7faa0f91cc1419bb0e7cccd85e369d9ec65aaa934afb423616dd0ada44bb9);
 (0x1b795d9be8dec6dd3617f3f9bc33c580debbc3cc19064f515209d00c3c88fd04, 0x6c87f61b675c50c01e862a53cfba384baefb8f95079b71087950ad5751be0a65);
 (0x5e9ac4ab2f4a3c3526e1317f913d69e3826fe862efd0c80d9310319170c5cbeb, 0x505f00fa8aee03ccbd2f33529ae1e4e4bcf2644fe673d0b0290ec32be5b51bab)];
[(0x2e5c4ef1a12730a9788953b5079a1184a9a237b9e281f0317514b53d220ddbf6, 0x5c1731365512a3965c5d5474a84e994ee44afe8cb7ff403517cbdc4dfb54008b);
 (0x4c6c9a0e8a4ef16e4b55b6eb2e728cf2afef2d38877d5ce8770ff2867bef24ce, 0x26d5711ee5a1e88273be70d6d8b9054cc5ed2581668d5ca83eb74fd1c286ea25);
 (0x599ba21b65ffb36cf3151c6e8662aa6c8b35948435819669d60cd77227507e92, 0x7f59b350f668c2b6797e53f3fcdf6ddd497ca01445f6e3bbbfa50c48865a9e2);
 (0x11cd80e1fdcbc565efed81d17f3f54643ffeed1cff38f3825e115adbd82759f1, 0x43f11943f7ef3fa68b980fee45e98134f1df22263b2d14419d61ffe62822dbe0);
 (0x68c33d8f33219a980ef7a4a10edcd58b0d2314d3c8ce301b6c0de50a100f3ee, 0x1032a93593881da4de11eedf679416b57135344cf9061c393b12d830ff4f7dcb);
 (0x1eac17c83ec7972fe82321bf2c4e6aa73565be5cef720aa9930c6fa3f0b1c087, 0x419a160079a825b1b3c51e57c6e5a257a86757c7a97bdd6dc1ecc40e521ef7b);
 (0x4ee45ad6672f7b5dce99d4f64c57742640feb26ae734fef8493ae38faba68896, 0x7041a7fe4facb6c6904101f856fbff5b2bb15c7dc602a4936af62555bdb3825c);
 (0x3328bc121616a9477165ed282053d203c24f4826076c638a2c6723d42c9bfadb, 0x2bbf3f26c21b5cb273e5f4f0114c6718c5eb7291939b7697c74333cdfafac039)];
[(0x3646a62ad82bd1f37a32412d71c1de8314637eea177267a0a5176fc37c90a733, 0x24dd06031fdaa9e8e94d73adc700ca86da20ea738f7dd05c088bb8f97c6bccac);
 (0x3c0c1e7beb87a53457a69c0f5985dcbee21e0acb65aca9eed7a52a980a61b29c, 0x74e826b2f1347631922c45546e2f1973ff349a34c6939e4bf0a0b50d6384bd2f);
 (0x53b1cdfe23ed553c0443b14bbba2119b58cd8c555ea7bde6c0cc4c0c6d90670a, 0x5ca6df45ad9630e4b8d5732bd06e5008a2677a342904fc587238af01f575fb05);
 (0xba774bb605dd804cae6887e81f6bd2c59e024fac8bf5f5c48a841a037c28398, 0x54ba013ad2d04dcdfb5a151b7347ee9a10067ddd0a3907e9bc337a77bf911321);
 (0x6e6b14df76458c45466bef23b9377cf147c97c495e8207a0436a200b4a39d548, 0x30f3b35dc952ba9d6b5fde2d131ab9b5b403f2583a7c2d8ada37764c29cac942);
 (0x496490af4080feeb8e38f78e769308b124edc07985b1ef7148d7620c6bfe6f4c, 0x7f6410727b65cafa07e53ab1e775ef0408cd5f12b94bdb4e533c4498c1da884a);
 (0x75bf0ea1fb606d05dd67e0f313809ac9792dc903159d032b05c96db7be967e0, 0x43ba373488c317aad659043f9bca4c85d9b081903e7767143522416bdec79f81);
 (0x1074ff0267662dc2b4ce65aaa0229c375a3d0d843ce9349233949581c869b64c, 0x299be0decb680ec28923da4d049770107d42c180b460da13a7b1efc7e6d5b022)];
[(0x3e63c4ae42121958f28e78e557e827a108156a81cc8b5c64362e2b362a42fe33, 0x3599286aac87e88c8c857059a5edbac1265bc15c047cb18502ae80caa79c9678);
 (0x31ddffcb76711dd76c6b48540967ab52ceb13e466fc3b2a44fc17508ad074a91, 0x221c9b9a258e4d271a0176119764072e484a3895d0508874076f36f0fdfa8836);
 (0x6b265507695b3cb34c25cc44a95dd559ec0245102bad71a3765eac0f0ebd57be, 0x3f7f093597acebfdca9d151e67d5802b991dd62f822a757af9e32951a7d46b30);
 (0x25ed76d78c87c3bd64b4331902c5a853734283e25f19f320295667b80a340d35, 0x179b5f92f545c7b326b3a63fb0b32a0f52b4159988436d5af50c1d0d76373947);
 (0x71880463417e760ecb72e31789bdb017139aaf83eaf20fc20e423bafa442b92c, 0x7be598f9de5bd5dc434f938efd89e30d39e02cf1bf657054ee9fdd5786387875);
 (0x76db1d03f26fe3e7dd73951d7a58abd8b6c1779e5c6f129463f2b2df11653be7, 0x24b91ba65c06f1df0b18d1030726681714e1ebbd27bea55a5abc1b522c4e06ae);
 (0x3d09f11b74381d32b6407d2f5f3305c5b6ecc5ed60b48431878c480e138066c5, 0x45f4a22ff69fc1dacbf100959bab8026af793c58551855753634f88dbc8269d4);
 (0x75d942c04210dcde5d1bd4fabfc732d3f95568e399382c0423c83c41cb05dc3f, 0x696cc14856cdc13c8fd7e2c5771731cbf38e3fad47a424679765c4874e35ab2d)];
[(0x6d12e0dd1cd8bd76ad5a191a61920fd4a3c317245e8bb210df90a57b885fae14, 0xd5c9e4b74fde7802a0b836724057a5b810f20f7dac4675a4d24a3028f70bd8e);
 (0x16c1556c9a2bc1af0b11cf369581a12d063081ad20f83407e1ebfba21f5fd594, 0x23e38cd5158b0f891e19adebe973b5b805b393deb8cf11d7281335745ef14f36);
 (0x66e632db15cc9b7695e73e2b94033b8d25fca89b99ef5e24436b804bb683be22, 0x534e3c9c194cccc190ffea06f048e7a6f65e6d5c7ef6074693fad6a6134af084);
 (0x5d9324f56975477d5945599eeeccec67708c996cd3f3f2818bf2591507e3502a, 0x10985a3cfd573205281aec24e2c8b41f5cd8cdfc9d7be34675cf306bbe1b4f6a);
 (0x3c08b09976fa5b99270e861a71c0ab1fe4d91e80e522ced3e19ac2d830f7dba3, 0x30a2ba28dfd74083de7aa9ecb4443a3773366abd33d1d1eea65d6a1b85d2932a);
 (0x27d83b61339890b9c8fbd00cb8657e01e08fe7e02cf1cc0c991f3e184647ebb2, 0x2aa089af71e21dc6264ed78eebeecab46c08c7e4c593c801ab744b503a72bea0);
 (0x4676d3812cc6b66e1f8c510f446ac562ff8a52086d52067482faa8dbdee40b98, 0x7d89e2b7744c57b1051450a0457fa0eb2a95c1bf8ed6bdf68f1aa7802e7429f4);
 (0x7511066c0e12105a7b937c7ecef367d5afe6e621e5cabf4e490b09b7ada7ee07, 0x604df365b8391cbca8848f88daa700b770da5bb136f70bfb0a3ea33ba386fcd5)];
[(0x668d5960c0b43b91185fc90d18ad46a4515235c7185bd5254981d26ae8619807, 0x7a66f757c21900b1e93c86e682114de2b5d3a248850958d957ae246e53791b03);
 (0x5089c58085e74644f85e2d03ef0759218dff976d9e8db4ca9f9522d70389e30f, 0x50cab959cb2b604196fa7ab73094347badcb954ec320fa01522986248653d88b);
 (0x761affb1e0d408002cc427dc6fff611536e2b989b0a5f94883a1b23789b5bc2, 0x3a6d110e6070153b7c42102c6dac97695b4a45872cc47c04392ea170812fe6b0);
 (0x2596e5b3cf5494e60d2a750d03c66abc2e0183af53620b893f9cf9fc3b76dc26, 0x68a0a7ac9a0cc093884a6b84f45a2cde595194e0f48dbd566fa78a3174b182fe);
 (0x249651cc143249f875c53d5aac9cd3b818989387875c08c7ad104723c7d60d25, 0x28fdf17c15bb6b0c4dd06abd210155b2bdeca64a5f02a6934f00437f05d9c65);
 (0x555439a0891500e49a25ccc1dc98fb600ad0f84600494322c44315cbf3d59bd, 0x5835c99533f44bcefffd61bc8926af99af9d0f669e428593ec19129bdf55935d);
 (0xdec3676055d5dafe7544edd68b7a80cda0443b311638b16a8aad05972aeb417, 0x48fa8dc3a82049989f4cdca7c6545513f02906fbc4c37d5b7457553832827c6d);
 (0x28bd38d44030dd9ca028b2a2f31a795f4c7a5e85a785df7847e3d525e99d4787, 0x552dd7405c4183733ad3c4e7ccb999b4fed81b7a4444aab499d41d6d78d5bbfc)];
[(0xec8fe27a51e6f75d4197b4711b5f17d8fc023224426a7a17d3fdce55f7be126, 0x3de83daf93d8aa7f7675b8df61c07b3c1cf8fe6b81327c3db1ed2cefab3d11d3);
 (0x393fb3d0b216d7a5f48da1dbe2fae37c1863636e599d725b0a4ddb6c768a89e5, 0x4e2107bc674405da517bd3ef9605b5ef6bf72e94c7963a80241776f56c0960ce);
 (0x1edff13d99073e0e6441de58438feb37c6e1eaa3103197eb7d22deb9216f73e9, 0x2e42eb00cbc19262a6caf1a51809d26674c878d718cd86a9e4e20617c243adf8);
 (0x59233a3346f61135f431f96cf0197e24ad38240b222c010a6ce538cf4c24347b, 0x3cce55908611d2b93f221613f09cfc4dbcd2e2b609233eea5439ad1908a10b20);
 (0x4b82eba78af08da395d2b48bf17f55f984d7991277777e29ec8e3c4afdbfea1a, 0x1437579645925f5d241c94c1c64c55c39f64033ff8234441e00adef63af4282c);
 (0x1a2cd99d3d94ed5a186f69c4ebb16fb282a589f9237585a55ba076b96690cdc1, 0x4044babe0b4de497049f1a9e995ac6e6ef0bedd2e822b0f8e037b70673e6b035);
 (0x24497c51a639670f653076aa14ee826a4241d6b20a89886f54bb1f5f919656c1, 0x3b80f82901f17808a3d7a986367410548092cb5120db4670d3750f11d178a335);
 (0x5830f025f1078d408948f73096af97de1e9e70b3be85890acb21132c34ff961f, 0x67d451752c2433ffe66e47242e301e56db2b2f8203553cab9de717e25793d41e)];
[(0x19929124ab5779c9a99e2d1716d8c07813132b29c69a3c1ed1f4e15da1d9062b, 0x52c0cbef541fe80c1e9b999483041e79950a13c4424073607d4975a69ca1fb69);
 (0x849c9e6da66d17bbf08dfdd339cf0c074ed671a2ed91dcf7a6a8737a1738914, 0x9f4dcbc5ae50392c92faf402cc4f17a92573a80d42e5a4c21de0ab0555edde9);
 (0x3dec05fa937adb1796e9d70e892ae0f4636b0b2f1e35444525f946d7c7220e7, 0x15949f784d8472f5691129fee55afc39462588c4a4ca4f146d1c271cc6375515);
 (0x6a0c8b194571e874b82d904da36d43096bbe36d512e24ff8dcb2b00b57ffd3ec, 0x5f85adb7749cc735ec838bcccfe7d4b52902c6132998d7ac8e032cad031c42b8);
 (0x3491b2f25603bb1a9841e6e62596cbb7310333ff29b1b84f5a68694556e18478, 0x988beda393eb3e3e57bf5875980dcbeaa11f81cd365bab3396b62a466f76c2c);
 (0x55f070d6c15fb0d96c033b175f5e2c810ede0fb19fb128f251037f7cf4e861d, 0x511144a03a99b8559991e1b02adb476f022f82391bad83787c52af2c97473e69);
 (0x11f540171499d7d1ddade06b6b7b5664e1a039172961513beeebb3837cfadf6c, 0x418b827fe0251682fd2c6901eb4b82a2ee53e97009ae688e8cbda81ca4944b6e);
 (0x53b3f967bff8760948dec5e9282f35d1434a5503790b9012e17faefbe7c4d699, 0x404462283c8664a17daa5b4059dcd10e2699fd86d0140de9f3e8ad0566098ae5)]].
(** odd multiples B, 3B, ..., 15B *)
Definition odd_pts : list (Z * Z) := [
(0x216936d3cd6e53fec0a4e231fdd6dc5c692cc7609525a7b2c9562d608f25d51a, 0x6666666666666666666666666666666666666666666666666666666666666658);
(0x67ae9c4a22928f491ff4ae743edac83a6343981981624886ac62485fd3f8e25c, 0x1267b1d177ee69aba126a18e60269ef79f16ec176724030402c3684878f5b4d4);
(0x49fda73eade3587bfcef7cf7d12da5de5c2819f93e1be1a591409cc0322ef233, 0x5f4825b298feae6fe02c6e148992466631282eca89430b5d10d21f83d676c8ed);
(0x14568685fcf4bd4ee9e3ee194b1d810783e809f3bbf1ce955855981af50e4107, 0x31c563e32b47d52f87ce6468dd36ad41f0882b46f7abf23d12c4c4b59f4062b8);
(0x357cc970c80071651bf336e06f9422b886d80e5c2e4e0294d3e023065185715c, 0x7f3d23c2c2dd0df4b2befce956f2d2fd1f789013236e4430c74e44845522f1c0);
(0x14e528b1154be417b6cf078dd6712438d381a5b2c593d552ff2fd2c1207cf3cb, 0x2d9082313f21ab975a6f7ce340ff0fce1258591c3c9c58d4308f2dc36a033713);
(0x107427e0d5f366ccdb33adf0282d304f8843e3e88d22b7b83780e073b7c05fed, 0x12dbb00ded538b7478466022d2da89b83740cfb2289a272387efe1aeea401f80);
(0x4f162deaec2ec435dc5ac6f95d20419ed9631374770189cb90617f3e66a18dc1, 0x12cbfb2d04ff22f55162f70164d29331ace5af18a19a9aa1946d4cc4ad2e5cdf)].
