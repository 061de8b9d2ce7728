(** * ITEMS_COLORS (/repo/hyperpack/constants.py:11-1011), copied. *)
From Coq Require Import String List.
Import ListNotations.
Open Scope string_scope.

Definition items_colors : list string := [
  "#6c5ebd"; "#cd5836"; "#912b56"; "#18033c"; "#f5d647"; "#df6555"; "#d3b21a"; "#73432d";
  "#cf0106"; "#f2a2a7"; "#46aaba"; "#96d502"; "#633332"; "#a0f268"; "#6f3955"; "#996d39";
  "#dcc40e"; "#c81049"; "#490c2c"; "#c2dddb"; "#d61058"; "#312ff8"; "#353f7c"; "#b09c92";
  "#717b36"; "#62555a"; "#10e39e"; "#8e8d43"; "#747114"; "#dc59fe"; "#775327"; "#ba32cd";
  "#e1c5f7"; "#4ee561"; "#33bcb1"; "#698911"; "#6fec02"; "#e335c5"; "#9edde9"; "#1afdac";
  "#de8850"; "#79e9b7"; "#fb1557"; "#d2c9fe"; "#334257"; "#f9e65d"; "#e7d396"; "#cc319a";
  "#6a0b8a"; "#ddc6d5"; "#943bbd"; "#d4e460"; "#325b21"; "#488cca"; "#300e18"; "#ac1d61";
  "#680fbc"; "#fc65a4"; "#c4e567"; "#c681a7"; "#3736c0"; "#e463ff"; "#63b208"; "#33aa76";
  "#8677bb"; "#6ac3eb"; "#a134ae"; "#45eb5f"; "#e65039"; "#d62a48"; "#9cafd2"; "#6f3bad";
  "#5801e3"; "#c5bb56"; "#0b5640"; "#ac9b70"; "#0908e1"; "#da8938"; "#2da642"; "#62096a";
  "#cdfdd6"; "#e001aa"; "#9f4805"; "#2f5de4"; "#529540"; "#ef4bc4"; "#961e61"; "#4606eb";
  "#0fc97e"; "#8ec9e8"; "#8e40e2"; "#7e7cd2"; "#bcab0d"; "#5b880a"; "#4ff630"; "#c6a096";
  "#cf5808"; "#0a811e"; "#4d9525"; "#71761d"; "#056fbc"; "#a560d2"; "#ea10e0"; "#c0e4c4";
  "#f5623e"; "#4c3b34"; "#e9dd4d"; "#dd7e39"; "#1dddcf"; "#41047b"; "#6dbba3"; "#6644c7";
  "#fdcae7"; "#4fe8b3"; "#6598de"; "#c134e3"; "#76cf47"; "#9f74d2"; "#aea011"; "#70d984";
  "#305f7c"; "#8c39b4"; "#fbf375"; "#9dbb1b"; "#9308a5"; "#e10897"; "#1d0921"; "#b3db65";
  "#6365e7"; "#c0b2bb"; "#6d8a4c"; "#0ee63d"; "#49fd93"; "#e98c5f"; "#6a5661"; "#50d7a0";
  "#bc070b"; "#137e67"; "#96a539"; "#6bf29c"; "#334dac"; "#5e5e38"; "#6baf77"; "#067a80";
  "#41357d"; "#64a3c4"; "#0d7ad1"; "#b0036a"; "#d71c33"; "#e0aeb6"; "#1b33af"; "#184255";
  "#6c4f8d"; "#6aac3e"; "#91b5da"; "#be16b9"; "#3e4c67"; "#86b531"; "#34cf63"; "#6e2926";
  "#ca97f6"; "#f3bff4"; "#d86200"; "#0cd3f5"; "#c1dead"; "#cb9380"; "#be73fa"; "#423e3e";
  "#6f5ba3"; "#46ac35"; "#d552be"; "#543b03"; "#00bb7e"; "#d4f656"; "#47d939"; "#5941a4";
  "#c4ed4e"; "#58a108"; "#3c6c88"; "#32f58c"; "#76c69e"; "#13ee36"; "#f3d881"; "#bb4cc3";
  "#455474"; "#f974c7"; "#22fbfb"; "#16213d"; "#093e86"; "#846803"; "#e83f45"; "#bd14d9";
  "#55e1a6"; "#ffb41d"; "#c71f33"; "#202f0b"; "#ed23d0"; "#02c73e"; "#a91d85"; "#6cee7d";
  "#09e685"; "#3a2ea7"; "#b6370f"; "#1a48fd"; "#805534"; "#192993"; "#5d0322"; "#ab4d36";
  "#ccba09"; "#ae57b3"; "#ac39c4"; "#e92cea"; "#5691bd"; "#0554b2"; "#5f5bbf"; "#b311d5";
  "#78f436"; "#d406f7"; "#82b599"; "#1f858b"; "#685ef0"; "#5f94f4"; "#350af4"; "#0e983a";
  "#35c2e2"; "#d6beb6"; "#0323c9"; "#398f58"; "#5e4ea8"; "#f521de"; "#f8610c"; "#0c31ed";
  "#8f4e71"; "#a7a4af"; "#2185a3"; "#3e9341"; "#2cac33"; "#ef03d6"; "#364fb7"; "#b05ba1";
  "#eec354"; "#eb0aab"; "#9d1192"; "#f27e1f"; "#650e52"; "#ab2692"; "#9ba20b"; "#e89221";
  "#a856f1"; "#23fb2c"; "#299386"; "#af0b63"; "#06d6f6"; "#509d5d"; "#9cd67f"; "#e216dd";
  "#c2b013"; "#093335"; "#2516ad"; "#28598a"; "#f42acf"; "#f2e75d"; "#683451"; "#719f0c";
  "#cb90ac"; "#f729b1"; "#fcaee9"; "#baaeaf"; "#b3bea6"; "#13fce8"; "#bc53c7"; "#2a33d3";
  "#fcd420"; "#95ae4c"; "#341fbe"; "#273ccd"; "#37a666"; "#c25965"; "#c3ae89"; "#6d50c1";
  "#e15cd4"; "#ed2975"; "#cc473b"; "#70e2f2"; "#53687b"; "#bfc7c6"; "#c9974f"; "#6dd39a";
  "#fa844d"; "#b1827f"; "#f7bd3e"; "#85e328"; "#0d3fa4"; "#3ed0bf"; "#a4482b"; "#d9b628";
  "#c5c52b"; "#d0a699"; "#039a13"; "#195ac5"; "#2d8e3a"; "#3783b8"; "#af8c72"; "#d0371c";
  "#242b52"; "#d4afa9"; "#d8b04c"; "#008009"; "#f43e6d"; "#015c1c"; "#b6d2fb"; "#abde9b";
  "#bcaf98"; "#6fba36"; "#7f6b71"; "#d7cfe1"; "#f00b41"; "#dbb9db"; "#67939b"; "#d4943e";
  "#344712"; "#4cc66b"; "#fb19cf"; "#b3bab3"; "#5080b9"; "#503fbf"; "#9fb41a"; "#6ae740";
  "#bd277a"; "#ac5978"; "#5f29e8"; "#c7ac71"; "#b5db01"; "#f3108e"; "#c24c74"; "#6de0a1";
  "#1819ff"; "#45a6e1"; "#584357"; "#320e15"; "#68913d"; "#157f85"; "#a255c4"; "#e035ab";
  "#608cff"; "#201eea"; "#e41d31"; "#d7e6da"; "#16df70"; "#a93f8a"; "#267791"; "#499123";
  "#3718ca"; "#e05197"; "#5e53a1"; "#f4efac"; "#2dc6d6"; "#c6671c"; "#87c2f2"; "#7a6ac6";
  "#b4773a"; "#d168cf"; "#7130f5"; "#0ce017"; "#025aa8"; "#164c00"; "#951336"; "#093ed1";
  "#f1e715"; "#10b3ce"; "#997815"; "#da84bb"; "#8fa08b"; "#cfe586"; "#e003f6"; "#97dacb";
  "#3450a0"; "#01d0f2"; "#74b889"; "#3eacbc"; "#b8b81b"; "#2dcd49"; "#14e5ce"; "#1918ba";
  "#ecf381"; "#8da3ff"; "#47041b"; "#e6dd72"; "#5248d2"; "#b6e8f3"; "#0e0ae6"; "#a43dd0";
  "#ada815"; "#334e7a"; "#261eb5"; "#70e163"; "#95af5a"; "#6966b2"; "#db61fa"; "#9525eb";
  "#23a373"; "#53daa9"; "#8e3de8"; "#14fbc7"; "#ad52b7"; "#e5b8c0"; "#2f90e4"; "#3f7d65";
  "#60cd2d"; "#e5d250"; "#5120ff"; "#f6707e"; "#48e61e"; "#3e97d7"; "#70c931"; "#cc7650";
  "#7e3372"; "#bd880f"; "#27414a"; "#97bf1c"; "#1c1022"; "#75ba43"; "#105f55"; "#c8f077";
  "#017991"; "#b891e2"; "#775b83"; "#949530"; "#c72de5"; "#229af0"; "#32454b"; "#e054e4";
  "#6936dd"; "#b825f5"; "#770ed4"; "#4eebba"; "#e49c23"; "#a21065"; "#58a711"; "#b6c008";
  "#37d993"; "#31f6cb"; "#8b086f"; "#fa9cc1"; "#dfd75b"; "#a4b400"; "#1dfa6c"; "#6ca080";
  "#a62ab9"; "#97dff5"; "#959732"; "#89216b"; "#c83c54"; "#717a04"; "#e6ea42"; "#9c6acd";
  "#a94372"; "#29f09e"; "#3e3260"; "#b5337d"; "#643096"; "#9d2cd6"; "#d0079d"; "#b9842e";
  "#a43c7a"; "#f2217e"; "#cfd6f9"; "#3cb3c0"; "#a0b47e"; "#29b728"; "#b67bf7"; "#5d77b6";
  "#506030"; "#bb49ef"; "#486a93"; "#e89762"; "#4f6a5d"; "#7a9db5"; "#c6763c"; "#f77869";
  "#a40493"; "#c8d503"; "#1d2688"; "#534439"; "#5fc45e"; "#10138d"; "#c73fe8"; "#dc5d09";
  "#043242"; "#df6b7d"; "#3e2225"; "#432195"; "#7e8c4c"; "#c8dbfc"; "#9def6a"; "#8452eb";
  "#7e8da3"; "#88e1f1"; "#6f2a27"; "#b1e1a4"; "#dc48bf"; "#78aa76"; "#7c4d62"; "#262835";
  "#dfbccb"; "#e3440f"; "#8b4971"; "#4f9a41"; "#9462e4"; "#9e21ca"; "#34ee0a"; "#f263cc";
  "#7badd9"; "#b9af1a"; "#b28bbc"; "#0d33e7"; "#cbf2a4"; "#3a3108"; "#607854"; "#bbcf53";
  "#9f313f"; "#29b104"; "#e5284a"; "#3a9701"; "#f68805"; "#82a5b3"; "#31e9ee"; "#dee9b6";
  "#b0782d"; "#5d1ea2"; "#e21d74"; "#695d8b"; "#bc9cef"; "#bd7fe6"; "#ab02bb"; "#1f6bb5";
  "#1f19a5"; "#715eda"; "#632605"; "#0f8046"; "#32393c"; "#4e375a"; "#da347a"; "#534d1b";
  "#7b742b"; "#35b705"; "#7213cc"; "#83900c"; "#f9b61a"; "#e5ecfd"; "#eb9789"; "#9874e4";
  "#049ca4"; "#ff9ec1"; "#972776"; "#35aae1"; "#228eff"; "#e30b1f"; "#cdf87c"; "#a06b4e";
  "#970550"; "#b8887f"; "#f08c63"; "#24c9d5"; "#b04333"; "#cca4cc"; "#319e06"; "#44cab5";
  "#b87dc4"; "#a5dcd3"; "#b7dc58"; "#6db9cf"; "#ca4202"; "#1bbf5a"; "#53bc20"; "#48774d";
  "#f6fb13"; "#215ae1"; "#1dae65"; "#9cc0ed"; "#15f100"; "#b385e2"; "#096894"; "#561c3e";
  "#fe7378"; "#403180"; "#ffda55"; "#00f9fb"; "#f85708"; "#fdadf2"; "#75faee"; "#ebec5c";
  "#e5977b"; "#081a22"; "#a84bce"; "#1dcee7"; "#7539b1"; "#8509ff"; "#130cf5"; "#ed9559";
  "#7149d0"; "#27205c"; "#484745"; "#4e4f49"; "#34c850"; "#7b8968"; "#11ba3b"; "#69b072";
  "#12dafb"; "#102711"; "#95616d"; "#548446"; "#184741"; "#7e985e"; "#8441c6"; "#d1b903";
  "#c5e55b"; "#1f9bec"; "#1299c2"; "#f447f5"; "#ecda91"; "#18e675"; "#b321f3"; "#88be28";
  "#64bbc0"; "#d68c36"; "#dcc469"; "#0f98ad"; "#62a284"; "#64fe87"; "#d5e98a"; "#f9d710";
  "#2c352e"; "#f82f58"; "#b64c46"; "#1aa3d4"; "#57eafa"; "#b31a60"; "#17d8f2"; "#530dff";
  "#14489b"; "#0c06cf"; "#2e6acb"; "#200e7d"; "#78e25c"; "#05771d"; "#19a1a2"; "#d90b17";
  "#d16eb3"; "#2a934e"; "#2bad22"; "#edb468"; "#400ba7"; "#b0e488"; "#977c8b"; "#cd33c9";
  "#f2b63f"; "#216130"; "#e104b2"; "#b8f85c"; "#6b6ca2"; "#eb8a8c"; "#b3db01"; "#cb904d";
  "#d9dae2"; "#170c05"; "#61b2e1"; "#7daad1"; "#2a0eff"; "#586582"; "#29b790"; "#26696c";
  "#6fd07e"; "#0828c7"; "#d44a62"; "#1a358d"; "#9732a5"; "#2afbde"; "#5fe8d9"; "#c96528";
  "#f3a68c"; "#a1db5c"; "#5b5594"; "#3e0c3a"; "#59c2d3"; "#ecbe53"; "#458d2c"; "#6c240e";
  "#354aa8"; "#b40aa4"; "#561b48"; "#c2f078"; "#8d8ec8"; "#422ade"; "#69458e"; "#3d3b97";
  "#5a0423"; "#792127"; "#d5f4ef"; "#efdfa6"; "#979c62"; "#9e0594"; "#cd39d5"; "#6bcc05";
  "#749fd4"; "#4556b4"; "#75b111"; "#565e5c"; "#f605b0"; "#3e0b15"; "#73b523"; "#69afdc";
  "#576e4a"; "#3b460f"; "#200a6f"; "#fa5ac7"; "#be90d4"; "#a27395"; "#330372"; "#3ecb87";
  "#719f02"; "#ecbcbe"; "#53416e"; "#caa997"; "#d42699"; "#7586da"; "#1898d6"; "#fbfff5";
  "#3b57b6"; "#e1c4a9"; "#9bc84e"; "#cb98cd"; "#a022ac"; "#108c0b"; "#5f21e1"; "#50cbcb";
  "#86e3cc"; "#e5d5f3"; "#9dd4e3"; "#577376"; "#526e2e"; "#3ebb3c"; "#abce40"; "#0207a2";
  "#a4bc01"; "#ff0587"; "#5106d0"; "#ea565f"; "#83dbe9"; "#603c0a"; "#78d01d"; "#db408c";
  "#606c24"; "#b4a65b"; "#3174f7"; "#ae6140"; "#bfbac9"; "#a72a05"; "#14252d"; "#77fcf2";
  "#ab463a"; "#b5c3d4"; "#52438c"; "#e41d43"; "#ebd496"; "#f8b4dc"; "#1bd2d7"; "#c88551";
  "#1783f2"; "#780deb"; "#0e3e63"; "#27371b"; "#341bc7"; "#a07a61"; "#580fbc"; "#ace9af";
  "#a538a8"; "#7a8e93"; "#c20d11"; "#adc7b2"; "#fca2f3"; "#e0ce5e"; "#b93909"; "#beb349";
  "#e1cf59"; "#4c4061"; "#069003"; "#70bb18"; "#7abcaf"; "#debea9"; "#3fc215"; "#7d7ae0";
  "#cbb464"; "#0e93d2"; "#8a7651"; "#e44d89"; "#5b18d0"; "#107a65"; "#0fe905"; "#236fab";
  "#a78d07"; "#a316ae"; "#9a1f7b"; "#2336bc"; "#00208b"; "#186c53"; "#3aecfd"; "#848c4f";
  "#91f385"; "#d475ac"; "#3ad85c"; "#47420e"; "#579606"; "#acc44d"; "#72e768"; "#321884";
  "#89ac69"; "#38ef41"; "#75dfe9"; "#3f82e4"; "#c04de4"; "#e6956a"; "#d6fd4e"; "#6b63ca";
  "#5b5158"; "#b42b87"; "#c5e20a"; "#4bef04"; "#20f3cc"; "#20fdfd"; "#b3e04e"; "#18b404";
  "#05d486"; "#ffa320"; "#ab0001"; "#6d68a7"; "#391f79"; "#a26ae3"; "#48d975"; "#b028bb";
  "#4f82db"; "#f37a48"; "#bce59a"; "#68441e"; "#d98971"; "#dc7a94"; "#eb6d31"; "#70b047";
  "#de94c3"; "#ef986f"; "#363c50"; "#30e6d6"; "#b0d720"; "#2208dc"; "#0e1351"; "#53573c";
  "#11b540"; "#8f4de7"; "#35458d"; "#5bb09a"; "#d236b1"; "#16ce9b"; "#ee6167"; "#499784";
  "#33ce25"; "#57114c"; "#40330d"; "#66447a"; "#819f02"; "#e69d38"; "#62a37e"; "#b3741d";
  "#dc9e99"; "#acf864"; "#84321d"; "#431252"; "#717093"; "#9ff9fc"; "#225324"; "#2b5237";
  "#22dedd"; "#3410e4"; "#758641"; "#8159ab"; "#f520dd"; "#8abd75"; "#c23f79"; "#e703fa";
  "#1ff424"; "#89233e"; "#0774c7"; "#e6d0c3"; "#d2c397"; "#a14807"; "#0fb042"; "#f752a8";
  "#2a3fe9"; "#255f5f"; "#eb76a1"; "#c72862"; "#60ef85"; "#b165e4"; "#b28482"; "#ecb9f2";
  "#092255"; "#ce43db"; "#e63e89"; "#119465"; "#1129f9"; "#bd4ced"; "#7eef01"; "#7b7c93";
  "#90a8cd"; "#b5c560"; "#c20955"; "#39a662"; "#7fa3c1"; "#f77064"; "#cf0664"; "#4fd287";
  "#3d8143"; "#096377"; "#97e373"; "#e48cd8"; "#2bfc8c"; "#2e9f5d"; "#f82457"; "#722641";
  "#fd2c6d"; "#8394f3"; "#8d52b8"; "#c4f93f"; "#8c3fe2"; "#4f8eba"; "#ff687e"; "#97483c";
  "#06991b"; "#d0b47b"; "#5e962c"; "#b6b5ed"; "#2aaa7c"; "#3a8c1b"; "#4b5fe2"; "#680b6a";
  "#0186e3"; "#e9de3b"; "#bf5036"; "#681a32"; "#4b1d7e"; "#7c719d"; "#024363"; "#75c668";
  "#cecc5e"; "#bad7db"; "#460a74"; "#5157c3"; "#65f1b9"; "#8de333"; "#646b61"; "#debaef";
  "#88916b"; "#1fc8d3"; "#d7bb15"; "#f1d2d1"; "#18a2fa"; "#c0c0e3"; "#baaaa2"; "#2004db";
  "#ba5752"; "#ee4848"; "#628a96"; "#e8817b"; "#0682ff"; "#1e1030"; "#22d6fc"; "#ac5648";
  "#90417d"; "#a7df70"; "#2a4f86"; "#462ddd"; "#a71688"; "#8199d5"; "#52688a"; "#820105";
  "#b3b19f"; "#c6255d"; "#3c616f"; "#335e60"; "#5f6ee1"; "#8933b2"; "#ff09a2"; "#af22a3";
  "#c3b94d"; "#ec0fc0"; "#e976f7"; "#24d362"; "#d86720"; "#2ab9b6"; "#b37eb1"; "#135519"
].
