(** The named character references of the HTML standard (section 13.5): name without the ampersand, code points.
    Data only, written from the published list and not from the repository. *)
From Coq Require Import ZArith List.
Import ListNotations.
Open Scope Z_scope.

Definition standard_names : list (list Z * list Z) := concat [
  [([65;69;108;105;103],[198]); ([65;69;108;105;103;59],[198]); ([65;77;80],[38]); ([65;77;80;59],[38]); ([65;97;99;117;116;101],[193]); ([65;97;99;117;116;101;59],[193]); ([65;98;114;101;118;101;59],[258]); ([65;99;105;114;99],[194]); ([65;99;105;114;99;59],[194]); ([65;99;121;59],[1040]); ([65;102;114;59],[120068]); ([65;103;114;97;118;101],[192]); ([65;103;114;97;118;101;59],[192]); ([65;108;112;104;97;59],[913]); ([65;109;97;99;114;59],[256]); ([65;110;100;59],[10835]); ([65;111;103;111;110;59],[260]); ([65;111;112;102;59],[120120]); ([65;112;112;108;121;70;117;110;99;116;105;111;110;59],[8289]); ([65;114;105;110;103],[197])];
  [([65;114;105;110;103;59],[197]); ([65;115;99;114;59],[119964]); ([65;115;115;105;103;110;59],[8788]); ([65;116;105;108;100;101],[195]); ([65;116;105;108;100;101;59],[195]); ([65;117;109;108],[196]); ([65;117;109;108;59],[196]); ([66;97;99;107;115;108;97;115;104;59],[8726]); ([66;97;114;118;59],[10983]); ([66;97;114;119;101;100;59],[8966]); ([66;99;121;59],[1041]); ([66;101;99;97;117;115;101;59],[8757]); ([66;101;114;110;111;117;108;108;105;115;59],[8492]); ([66;101;116;97;59],[914]); ([66;102;114;59],[120069]); ([66;111;112;102;59],[120121]); ([66;114;101;118;101;59],[728]); ([66;115;99;114;59],[8492]); ([66;117;109;112;101;113;59],[8782]); ([67;72;99;121;59],[1063])];
  [([67;79;80;89],[169]); ([67;79;80;89;59],[169]); ([67;97;99;117;116;101;59],[262]); ([67;97;112;59],[8914]); ([67;97;112;105;116;97;108;68;105;102;102;101;114;101;110;116;105;97;108;68;59],[8517]); ([67;97;121;108;101;121;115;59],[8493]); ([67;99;97;114;111;110;59],[268]); ([67;99;101;100;105;108],[199]); ([67;99;101;100;105;108;59],[199]); ([67;99;105;114;99;59],[264]); ([67;99;111;110;105;110;116;59],[8752]); ([67;100;111;116;59],[266]); ([67;101;100;105;108;108;97;59],[184]); ([67;101;110;116;101;114;68;111;116;59],[183]); ([67;102;114;59],[8493]); ([67;104;105;59],[935]); ([67;105;114;99;108;101;68;111;116;59],[8857]); ([67;105;114;99;108;101;77;105;110;117;115;59],[8854]); ([67;105;114;99;108;101;80;108;117;115;59],[8853]); ([67;105;114;99;108;101;84;105;109;101;115;59],[8855])];
  [([67;108;111;99;107;119;105;115;101;67;111;110;116;111;117;114;73;110;116;101;103;114;97;108;59],[8754]); ([67;108;111;115;101;67;117;114;108;121;68;111;117;98;108;101;81;117;111;116;101;59],[8221]); ([67;108;111;115;101;67;117;114;108;121;81;117;111;116;101;59],[8217]); ([67;111;108;111;110;59],[8759]); ([67;111;108;111;110;101;59],[10868]); ([67;111;110;103;114;117;101;110;116;59],[8801]); ([67;111;110;105;110;116;59],[8751]); ([67;111;110;116;111;117;114;73;110;116;101;103;114;97;108;59],[8750]); ([67;111;112;102;59],[8450]); ([67;111;112;114;111;100;117;99;116;59],[8720]); ([67;111;117;110;116;101;114;67;108;111;99;107;119;105;115;101;67;111;110;116;111;117;114;73;110;116;101;103;114;97;108;59],[8755]); ([67;114;111;115;115;59],[10799]); ([67;115;99;114;59],[119966]); ([67;117;112;59],[8915]); ([67;117;112;67;97;112;59],[8781]); ([68;68;59],[8517]); ([68;68;111;116;114;97;104;100;59],[10513]); ([68;74;99;121;59],[1026]); ([68;83;99;121;59],[1029]); ([68;90;99;121;59],[1039])];
  [([68;97;103;103;101;114;59],[8225]); ([68;97;114;114;59],[8609]); ([68;97;115;104;118;59],[10980]); ([68;99;97;114;111;110;59],[270]); ([68;99;121;59],[1044]); ([68;101;108;59],[8711]); ([68;101;108;116;97;59],[916]); ([68;102;114;59],[120071]); ([68;105;97;99;114;105;116;105;99;97;108;65;99;117;116;101;59],[180]); ([68;105;97;99;114;105;116;105;99;97;108;68;111;116;59],[729]); ([68;105;97;99;114;105;116;105;99;97;108;68;111;117;98;108;101;65;99;117;116;101;59],[733]); ([68;105;97;99;114;105;116;105;99;97;108;71;114;97;118;101;59],[96]); ([68;105;97;99;114;105;116;105;99;97;108;84;105;108;100;101;59],[732]); ([68;105;97;109;111;110;100;59],[8900]); ([68;105;102;102;101;114;101;110;116;105;97;108;68;59],[8518]); ([68;111;112;102;59],[120123]); ([68;111;116;59],[168]); ([68;111;116;68;111;116;59],[8412]); ([68;111;116;69;113;117;97;108;59],[8784]); ([68;111;117;98;108;101;67;111;110;116;111;117;114;73;110;116;101;103;114;97;108;59],[8751])];
  [([68;111;117;98;108;101;68;111;116;59],[168]); ([68;111;117;98;108;101;68;111;119;110;65;114;114;111;119;59],[8659]); ([68;111;117;98;108;101;76;101;102;116;65;114;114;111;119;59],[8656]); ([68;111;117;98;108;101;76;101;102;116;82;105;103;104;116;65;114;114;111;119;59],[8660]); ([68;111;117;98;108;101;76;101;102;116;84;101;101;59],[10980]); ([68;111;117;98;108;101;76;111;110;103;76;101;102;116;65;114;114;111;119;59],[10232]); ([68;111;117;98;108;101;76;111;110;103;76;101;102;116;82;105;103;104;116;65;114;114;111;119;59],[10234]); ([68;111;117;98;108;101;76;111;110;103;82;105;103;104;116;65;114;114;111;119;59],[10233]); ([68;111;117;98;108;101;82;105;103;104;116;65;114;114;111;119;59],[8658]); ([68;111;117;98;108;101;82;105;103;104;116;84;101;101;59],[8872]); ([68;111;117;98;108;101;85;112;65;114;114;111;119;59],[8657]); ([68;111;117;98;108;101;85;112;68;111;119;110;65;114;114;111;119;59],[8661]); ([68;111;117;98;108;101;86;101;114;116;105;99;97;108;66;97;114;59],[8741]); ([68;111;119;110;65;114;114;111;119;59],[8595]); ([68;111;119;110;65;114;114;111;119;66;97;114;59],[10515]); ([68;111;119;110;65;114;114;111;119;85;112;65;114;114;111;119;59],[8693]); ([68;111;119;110;66;114;101;118;101;59],[785]); ([68;111;119;110;76;101;102;116;82;105;103;104;116;86;101;99;116;111;114;59],[10576]); ([68;111;119;110;76;101;102;116;84;101;101;86;101;99;116;111;114;59],[10590]); ([68;111;119;110;76;101;102;116;86;101;99;116;111;114;59],[8637])];
  [([68;111;119;110;76;101;102;116;86;101;99;116;111;114;66;97;114;59],[10582]); ([68;111;119;110;82;105;103;104;116;84;101;101;86;101;99;116;111;114;59],[10591]); ([68;111;119;110;82;105;103;104;116;86;101;99;116;111;114;59],[8641]); ([68;111;119;110;82;105;103;104;116;86;101;99;116;111;114;66;97;114;59],[10583]); ([68;111;119;110;84;101;101;59],[8868]); ([68;111;119;110;84;101;101;65;114;114;111;119;59],[8615]); ([68;111;119;110;97;114;114;111;119;59],[8659]); ([68;115;99;114;59],[119967]); ([68;115;116;114;111;107;59],[272]); ([69;78;71;59],[330]); ([69;84;72],[208]); ([69;84;72;59],[208]); ([69;97;99;117;116;101],[201]); ([69;97;99;117;116;101;59],[201]); ([69;99;97;114;111;110;59],[282]); ([69;99;105;114;99],[202]); ([69;99;105;114;99;59],[202]); ([69;99;121;59],[1069]); ([69;100;111;116;59],[278]); ([69;102;114;59],[120072])];
  [([69;103;114;97;118;101],[200]); ([69;103;114;97;118;101;59],[200]); ([69;108;101;109;101;110;116;59],[8712]); ([69;109;97;99;114;59],[274]); ([69;109;112;116;121;83;109;97;108;108;83;113;117;97;114;101;59],[9723]); ([69;109;112;116;121;86;101;114;121;83;109;97;108;108;83;113;117;97;114;101;59],[9643]); ([69;111;103;111;110;59],[280]); ([69;111;112;102;59],[120124]); ([69;112;115;105;108;111;110;59],[917]); ([69;113;117;97;108;59],[10869]); ([69;113;117;97;108;84;105;108;100;101;59],[8770]); ([69;113;117;105;108;105;98;114;105;117;109;59],[8652]); ([69;115;99;114;59],[8496]); ([69;115;105;109;59],[10867]); ([69;116;97;59],[919]); ([69;117;109;108],[203]); ([69;117;109;108;59],[203]); ([69;120;105;115;116;115;59],[8707]); ([69;120;112;111;110;101;110;116;105;97;108;69;59],[8519]); ([70;99;121;59],[1060])];
  [([70;102;114;59],[120073]); ([70;105;108;108;101;100;83;109;97;108;108;83;113;117;97;114;101;59],[9724]); ([70;105;108;108;101;100;86;101;114;121;83;109;97;108;108;83;113;117;97;114;101;59],[9642]); ([70;111;112;102;59],[120125]); ([70;111;114;65;108;108;59],[8704]); ([70;111;117;114;105;101;114;116;114;102;59],[8497]); ([70;115;99;114;59],[8497]); ([71;74;99;121;59],[1027]); ([71;84],[62]); ([71;84;59],[62]); ([71;97;109;109;97;59],[915]); ([71;97;109;109;97;100;59],[988]); ([71;98;114;101;118;101;59],[286]); ([71;99;101;100;105;108;59],[290]); ([71;99;105;114;99;59],[284]); ([71;99;121;59],[1043]); ([71;100;111;116;59],[288]); ([71;102;114;59],[120074]); ([71;103;59],[8921]); ([71;111;112;102;59],[120126])];
  [([71;114;101;97;116;101;114;69;113;117;97;108;59],[8805]); ([71;114;101;97;116;101;114;69;113;117;97;108;76;101;115;115;59],[8923]); ([71;114;101;97;116;101;114;70;117;108;108;69;113;117;97;108;59],[8807]); ([71;114;101;97;116;101;114;71;114;101;97;116;101;114;59],[10914]); ([71;114;101;97;116;101;114;76;101;115;115;59],[8823]); ([71;114;101;97;116;101;114;83;108;97;110;116;69;113;117;97;108;59],[10878]); ([71;114;101;97;116;101;114;84;105;108;100;101;59],[8819]); ([71;115;99;114;59],[119970]); ([71;116;59],[8811]); ([72;65;82;68;99;121;59],[1066]); ([72;97;99;101;107;59],[711]); ([72;97;116;59],[94]); ([72;99;105;114;99;59],[292]); ([72;102;114;59],[8460]); ([72;105;108;98;101;114;116;83;112;97;99;101;59],[8459]); ([72;111;112;102;59],[8461]); ([72;111;114;105;122;111;110;116;97;108;76;105;110;101;59],[9472]); ([72;115;99;114;59],[8459]); ([72;115;116;114;111;107;59],[294]); ([72;117;109;112;68;111;119;110;72;117;109;112;59],[8782])];
  [([72;117;109;112;69;113;117;97;108;59],[8783]); ([73;69;99;121;59],[1045]); ([73;74;108;105;103;59],[306]); ([73;79;99;121;59],[1025]); ([73;97;99;117;116;101],[205]); ([73;97;99;117;116;101;59],[205]); ([73;99;105;114;99],[206]); ([73;99;105;114;99;59],[206]); ([73;99;121;59],[1048]); ([73;100;111;116;59],[304]); ([73;102;114;59],[8465]); ([73;103;114;97;118;101],[204]); ([73;103;114;97;118;101;59],[204]); ([73;109;59],[8465]); ([73;109;97;99;114;59],[298]); ([73;109;97;103;105;110;97;114;121;73;59],[8520]); ([73;109;112;108;105;101;115;59],[8658]); ([73;110;116;59],[8748]); ([73;110;116;101;103;114;97;108;59],[8747]); ([73;110;116;101;114;115;101;99;116;105;111;110;59],[8898])];
  [([73;110;118;105;115;105;98;108;101;67;111;109;109;97;59],[8291]); ([73;110;118;105;115;105;98;108;101;84;105;109;101;115;59],[8290]); ([73;111;103;111;110;59],[302]); ([73;111;112;102;59],[120128]); ([73;111;116;97;59],[921]); ([73;115;99;114;59],[8464]); ([73;116;105;108;100;101;59],[296]); ([73;117;107;99;121;59],[1030]); ([73;117;109;108],[207]); ([73;117;109;108;59],[207]); ([74;99;105;114;99;59],[308]); ([74;99;121;59],[1049]); ([74;102;114;59],[120077]); ([74;111;112;102;59],[120129]); ([74;115;99;114;59],[119973]); ([74;115;101;114;99;121;59],[1032]); ([74;117;107;99;121;59],[1028]); ([75;72;99;121;59],[1061]); ([75;74;99;121;59],[1036]); ([75;97;112;112;97;59],[922])];
  [([75;99;101;100;105;108;59],[310]); ([75;99;121;59],[1050]); ([75;102;114;59],[120078]); ([75;111;112;102;59],[120130]); ([75;115;99;114;59],[119974]); ([76;74;99;121;59],[1033]); ([76;84],[60]); ([76;84;59],[60]); ([76;97;99;117;116;101;59],[313]); ([76;97;109;98;100;97;59],[923]); ([76;97;110;103;59],[10218]); ([76;97;112;108;97;99;101;116;114;102;59],[8466]); ([76;97;114;114;59],[8606]); ([76;99;97;114;111;110;59],[317]); ([76;99;101;100;105;108;59],[315]); ([76;99;121;59],[1051]); ([76;101;102;116;65;110;103;108;101;66;114;97;99;107;101;116;59],[10216]); ([76;101;102;116;65;114;114;111;119;59],[8592]); ([76;101;102;116;65;114;114;111;119;66;97;114;59],[8676]); ([76;101;102;116;65;114;114;111;119;82;105;103;104;116;65;114;114;111;119;59],[8646])];
  [([76;101;102;116;67;101;105;108;105;110;103;59],[8968]); ([76;101;102;116;68;111;117;98;108;101;66;114;97;99;107;101;116;59],[10214]); ([76;101;102;116;68;111;119;110;84;101;101;86;101;99;116;111;114;59],[10593]); ([76;101;102;116;68;111;119;110;86;101;99;116;111;114;59],[8643]); ([76;101;102;116;68;111;119;110;86;101;99;116;111;114;66;97;114;59],[10585]); ([76;101;102;116;70;108;111;111;114;59],[8970]); ([76;101;102;116;82;105;103;104;116;65;114;114;111;119;59],[8596]); ([76;101;102;116;82;105;103;104;116;86;101;99;116;111;114;59],[10574]); ([76;101;102;116;84;101;101;59],[8867]); ([76;101;102;116;84;101;101;65;114;114;111;119;59],[8612]); ([76;101;102;116;84;101;101;86;101;99;116;111;114;59],[10586]); ([76;101;102;116;84;114;105;97;110;103;108;101;59],[8882]); ([76;101;102;116;84;114;105;97;110;103;108;101;66;97;114;59],[10703]); ([76;101;102;116;84;114;105;97;110;103;108;101;69;113;117;97;108;59],[8884]); ([76;101;102;116;85;112;68;111;119;110;86;101;99;116;111;114;59],[10577]); ([76;101;102;116;85;112;84;101;101;86;101;99;116;111;114;59],[10592]); ([76;101;102;116;85;112;86;101;99;116;111;114;59],[8639]); ([76;101;102;116;85;112;86;101;99;116;111;114;66;97;114;59],[10584]); ([76;101;102;116;86;101;99;116;111;114;59],[8636]); ([76;101;102;116;86;101;99;116;111;114;66;97;114;59],[10578])];
  [([76;101;102;116;97;114;114;111;119;59],[8656]); ([76;101;102;116;114;105;103;104;116;97;114;114;111;119;59],[8660]); ([76;101;115;115;69;113;117;97;108;71;114;101;97;116;101;114;59],[8922]); ([76;101;115;115;70;117;108;108;69;113;117;97;108;59],[8806]); ([76;101;115;115;71;114;101;97;116;101;114;59],[8822]); ([76;101;115;115;76;101;115;115;59],[10913]); ([76;101;115;115;83;108;97;110;116;69;113;117;97;108;59],[10877]); ([76;101;115;115;84;105;108;100;101;59],[8818]); ([76;102;114;59],[120079]); ([76;108;59],[8920]); ([76;108;101;102;116;97;114;114;111;119;59],[8666]); ([76;109;105;100;111;116;59],[319]); ([76;111;110;103;76;101;102;116;65;114;114;111;119;59],[10229]); ([76;111;110;103;76;101;102;116;82;105;103;104;116;65;114;114;111;119;59],[10231]); ([76;111;110;103;82;105;103;104;116;65;114;114;111;119;59],[10230]); ([76;111;110;103;108;101;102;116;97;114;114;111;119;59],[10232]); ([76;111;110;103;108;101;102;116;114;105;103;104;116;97;114;114;111;119;59],[10234]); ([76;111;110;103;114;105;103;104;116;97;114;114;111;119;59],[10233]); ([76;111;112;102;59],[120131]); ([76;111;119;101;114;76;101;102;116;65;114;114;111;119;59],[8601])];
  [([76;111;119;101;114;82;105;103;104;116;65;114;114;111;119;59],[8600]); ([76;115;99;114;59],[8466]); ([76;115;104;59],[8624]); ([76;115;116;114;111;107;59],[321]); ([76;116;59],[8810]); ([77;97;112;59],[10501]); ([77;99;121;59],[1052]); ([77;101;100;105;117;109;83;112;97;99;101;59],[8287]); ([77;101;108;108;105;110;116;114;102;59],[8499]); ([77;102;114;59],[120080]); ([77;105;110;117;115;80;108;117;115;59],[8723]); ([77;111;112;102;59],[120132]); ([77;115;99;114;59],[8499]); ([77;117;59],[924]); ([78;74;99;121;59],[1034]); ([78;97;99;117;116;101;59],[323]); ([78;99;97;114;111;110;59],[327]); ([78;99;101;100;105;108;59],[325]); ([78;99;121;59],[1053]); ([78;101;103;97;116;105;118;101;77;101;100;105;117;109;83;112;97;99;101;59],[8203])];
  [([78;101;103;97;116;105;118;101;84;104;105;99;107;83;112;97;99;101;59],[8203]); ([78;101;103;97;116;105;118;101;84;104;105;110;83;112;97;99;101;59],[8203]); ([78;101;103;97;116;105;118;101;86;101;114;121;84;104;105;110;83;112;97;99;101;59],[8203]); ([78;101;115;116;101;100;71;114;101;97;116;101;114;71;114;101;97;116;101;114;59],[8811]); ([78;101;115;116;101;100;76;101;115;115;76;101;115;115;59],[8810]); ([78;101;119;76;105;110;101;59],[10]); ([78;102;114;59],[120081]); ([78;111;66;114;101;97;107;59],[8288]); ([78;111;110;66;114;101;97;107;105;110;103;83;112;97;99;101;59],[160]); ([78;111;112;102;59],[8469]); ([78;111;116;59],[10988]); ([78;111;116;67;111;110;103;114;117;101;110;116;59],[8802]); ([78;111;116;67;117;112;67;97;112;59],[8813]); ([78;111;116;68;111;117;98;108;101;86;101;114;116;105;99;97;108;66;97;114;59],[8742]); ([78;111;116;69;108;101;109;101;110;116;59],[8713]); ([78;111;116;69;113;117;97;108;59],[8800]); ([78;111;116;69;113;117;97;108;84;105;108;100;101;59],[8770;824]); ([78;111;116;69;120;105;115;116;115;59],[8708]); ([78;111;116;71;114;101;97;116;101;114;59],[8815]); ([78;111;116;71;114;101;97;116;101;114;69;113;117;97;108;59],[8817])];
  [([78;111;116;71;114;101;97;116;101;114;70;117;108;108;69;113;117;97;108;59],[8807;824]); ([78;111;116;71;114;101;97;116;101;114;71;114;101;97;116;101;114;59],[8811;824]); ([78;111;116;71;114;101;97;116;101;114;76;101;115;115;59],[8825]); ([78;111;116;71;114;101;97;116;101;114;83;108;97;110;116;69;113;117;97;108;59],[10878;824]); ([78;111;116;71;114;101;97;116;101;114;84;105;108;100;101;59],[8821]); ([78;111;116;72;117;109;112;68;111;119;110;72;117;109;112;59],[8782;824]); ([78;111;116;72;117;109;112;69;113;117;97;108;59],[8783;824]); ([78;111;116;76;101;102;116;84;114;105;97;110;103;108;101;59],[8938]); ([78;111;116;76;101;102;116;84;114;105;97;110;103;108;101;66;97;114;59],[10703;824]); ([78;111;116;76;101;102;116;84;114;105;97;110;103;108;101;69;113;117;97;108;59],[8940]); ([78;111;116;76;101;115;115;59],[8814]); ([78;111;116;76;101;115;115;69;113;117;97;108;59],[8816]); ([78;111;116;76;101;115;115;71;114;101;97;116;101;114;59],[8824]); ([78;111;116;76;101;115;115;76;101;115;115;59],[8810;824]); ([78;111;116;76;101;115;115;83;108;97;110;116;69;113;117;97;108;59],[10877;824]); ([78;111;116;76;101;115;115;84;105;108;100;101;59],[8820]); ([78;111;116;78;101;115;116;101;100;71;114;101;97;116;101;114;71;114;101;97;116;101;114;59],[10914;824]); ([78;111;116;78;101;115;116;101;100;76;101;115;115;76;101;115;115;59],[10913;824]); ([78;111;116;80;114;101;99;101;100;101;115;59],[8832]); ([78;111;116;80;114;101;99;101;100;101;115;69;113;117;97;108;59],[10927;824])];
  [([78;111;116;80;114;101;99;101;100;101;115;83;108;97;110;116;69;113;117;97;108;59],[8928]); ([78;111;116;82;101;118;101;114;115;101;69;108;101;109;101;110;116;59],[8716]); ([78;111;116;82;105;103;104;116;84;114;105;97;110;103;108;101;59],[8939]); ([78;111;116;82;105;103;104;116;84;114;105;97;110;103;108;101;66;97;114;59],[10704;824]); ([78;111;116;82;105;103;104;116;84;114;105;97;110;103;108;101;69;113;117;97;108;59],[8941]); ([78;111;116;83;113;117;97;114;101;83;117;98;115;101;116;59],[8847;824]); ([78;111;116;83;113;117;97;114;101;83;117;98;115;101;116;69;113;117;97;108;59],[8930]); ([78;111;116;83;113;117;97;114;101;83;117;112;101;114;115;101;116;59],[8848;824]); ([78;111;116;83;113;117;97;114;101;83;117;112;101;114;115;101;116;69;113;117;97;108;59],[8931]); ([78;111;116;83;117;98;115;101;116;59],[8834;8402]); ([78;111;116;83;117;98;115;101;116;69;113;117;97;108;59],[8840]); ([78;111;116;83;117;99;99;101;101;100;115;59],[8833]); ([78;111;116;83;117;99;99;101;101;100;115;69;113;117;97;108;59],[10928;824]); ([78;111;116;83;117;99;99;101;101;100;115;83;108;97;110;116;69;113;117;97;108;59],[8929]); ([78;111;116;83;117;99;99;101;101;100;115;84;105;108;100;101;59],[8831;824]); ([78;111;116;83;117;112;101;114;115;101;116;59],[8835;8402]); ([78;111;116;83;117;112;101;114;115;101;116;69;113;117;97;108;59],[8841]); ([78;111;116;84;105;108;100;101;59],[8769]); ([78;111;116;84;105;108;100;101;69;113;117;97;108;59],[8772]); ([78;111;116;84;105;108;100;101;70;117;108;108;69;113;117;97;108;59],[8775])];
  [([78;111;116;84;105;108;100;101;84;105;108;100;101;59],[8777]); ([78;111;116;86;101;114;116;105;99;97;108;66;97;114;59],[8740]); ([78;115;99;114;59],[119977]); ([78;116;105;108;100;101],[209]); ([78;116;105;108;100;101;59],[209]); ([78;117;59],[925]); ([79;69;108;105;103;59],[338]); ([79;97;99;117;116;101],[211]); ([79;97;99;117;116;101;59],[211]); ([79;99;105;114;99],[212]); ([79;99;105;114;99;59],[212]); ([79;99;121;59],[1054]); ([79;100;98;108;97;99;59],[336]); ([79;102;114;59],[120082]); ([79;103;114;97;118;101],[210]); ([79;103;114;97;118;101;59],[210]); ([79;109;97;99;114;59],[332]); ([79;109;101;103;97;59],[937]); ([79;109;105;99;114;111;110;59],[927]); ([79;111;112;102;59],[120134])];
  [([79;112;101;110;67;117;114;108;121;68;111;117;98;108;101;81;117;111;116;101;59],[8220]); ([79;112;101;110;67;117;114;108;121;81;117;111;116;101;59],[8216]); ([79;114;59],[10836]); ([79;115;99;114;59],[119978]); ([79;115;108;97;115;104],[216]); ([79;115;108;97;115;104;59],[216]); ([79;116;105;108;100;101],[213]); ([79;116;105;108;100;101;59],[213]); ([79;116;105;109;101;115;59],[10807]); ([79;117;109;108],[214]); ([79;117;109;108;59],[214]); ([79;118;101;114;66;97;114;59],[8254]); ([79;118;101;114;66;114;97;99;101;59],[9182]); ([79;118;101;114;66;114;97;99;107;101;116;59],[9140]); ([79;118;101;114;80;97;114;101;110;116;104;101;115;105;115;59],[9180]); ([80;97;114;116;105;97;108;68;59],[8706]); ([80;99;121;59],[1055]); ([80;102;114;59],[120083]); ([80;104;105;59],[934]); ([80;105;59],[928])];
  [([80;108;117;115;77;105;110;117;115;59],[177]); ([80;111;105;110;99;97;114;101;112;108;97;110;101;59],[8460]); ([80;111;112;102;59],[8473]); ([80;114;59],[10939]); ([80;114;101;99;101;100;101;115;59],[8826]); ([80;114;101;99;101;100;101;115;69;113;117;97;108;59],[10927]); ([80;114;101;99;101;100;101;115;83;108;97;110;116;69;113;117;97;108;59],[8828]); ([80;114;101;99;101;100;101;115;84;105;108;100;101;59],[8830]); ([80;114;105;109;101;59],[8243]); ([80;114;111;100;117;99;116;59],[8719]); ([80;114;111;112;111;114;116;105;111;110;59],[8759]); ([80;114;111;112;111;114;116;105;111;110;97;108;59],[8733]); ([80;115;99;114;59],[119979]); ([80;115;105;59],[936]); ([81;85;79;84],[34]); ([81;85;79;84;59],[34]); ([81;102;114;59],[120084]); ([81;111;112;102;59],[8474]); ([81;115;99;114;59],[119980]); ([82;66;97;114;114;59],[10512])];
  [([82;69;71],[174]); ([82;69;71;59],[174]); ([82;97;99;117;116;101;59],[340]); ([82;97;110;103;59],[10219]); ([82;97;114;114;59],[8608]); ([82;97;114;114;116;108;59],[10518]); ([82;99;97;114;111;110;59],[344]); ([82;99;101;100;105;108;59],[342]); ([82;99;121;59],[1056]); ([82;101;59],[8476]); ([82;101;118;101;114;115;101;69;108;101;109;101;110;116;59],[8715]); ([82;101;118;101;114;115;101;69;113;117;105;108;105;98;114;105;117;109;59],[8651]); ([82;101;118;101;114;115;101;85;112;69;113;117;105;108;105;98;114;105;117;109;59],[10607]); ([82;102;114;59],[8476]); ([82;104;111;59],[929]); ([82;105;103;104;116;65;110;103;108;101;66;114;97;99;107;101;116;59],[10217]); ([82;105;103;104;116;65;114;114;111;119;59],[8594]); ([82;105;103;104;116;65;114;114;111;119;66;97;114;59],[8677]); ([82;105;103;104;116;65;114;114;111;119;76;101;102;116;65;114;114;111;119;59],[8644]); ([82;105;103;104;116;67;101;105;108;105;110;103;59],[8969])];
  [([82;105;103;104;116;68;111;117;98;108;101;66;114;97;99;107;101;116;59],[10215]); ([82;105;103;104;116;68;111;119;110;84;101;101;86;101;99;116;111;114;59],[10589]); ([82;105;103;104;116;68;111;119;110;86;101;99;116;111;114;59],[8642]); ([82;105;103;104;116;68;111;119;110;86;101;99;116;111;114;66;97;114;59],[10581]); ([82;105;103;104;116;70;108;111;111;114;59],[8971]); ([82;105;103;104;116;84;101;101;59],[8866]); ([82;105;103;104;116;84;101;101;65;114;114;111;119;59],[8614]); ([82;105;103;104;116;84;101;101;86;101;99;116;111;114;59],[10587]); ([82;105;103;104;116;84;114;105;97;110;103;108;101;59],[8883]); ([82;105;103;104;116;84;114;105;97;110;103;108;101;66;97;114;59],[10704]); ([82;105;103;104;116;84;114;105;97;110;103;108;101;69;113;117;97;108;59],[8885]); ([82;105;103;104;116;85;112;68;111;119;110;86;101;99;116;111;114;59],[10575]); ([82;105;103;104;116;85;112;84;101;101;86;101;99;116;111;114;59],[10588]); ([82;105;103;104;116;85;112;86;101;99;116;111;114;59],[8638]); ([82;105;103;104;116;85;112;86;101;99;116;111;114;66;97;114;59],[10580]); ([82;105;103;104;116;86;101;99;116;111;114;59],[8640]); ([82;105;103;104;116;86;101;99;116;111;114;66;97;114;59],[10579]); ([82;105;103;104;116;97;114;114;111;119;59],[8658]); ([82;111;112;102;59],[8477]); ([82;111;117;110;100;73;109;112;108;105;101;115;59],[10608])];
  [([82;114;105;103;104;116;97;114;114;111;119;59],[8667]); ([82;115;99;114;59],[8475]); ([82;115;104;59],[8625]); ([82;117;108;101;68;101;108;97;121;101;100;59],[10740]); ([83;72;67;72;99;121;59],[1065]); ([83;72;99;121;59],[1064]); ([83;79;70;84;99;121;59],[1068]); ([83;97;99;117;116;101;59],[346]); ([83;99;59],[10940]); ([83;99;97;114;111;110;59],[352]); ([83;99;101;100;105;108;59],[350]); ([83;99;105;114;99;59],[348]); ([83;99;121;59],[1057]); ([83;102;114;59],[120086]); ([83;104;111;114;116;68;111;119;110;65;114;114;111;119;59],[8595]); ([83;104;111;114;116;76;101;102;116;65;114;114;111;119;59],[8592]); ([83;104;111;114;116;82;105;103;104;116;65;114;114;111;119;59],[8594]); ([83;104;111;114;116;85;112;65;114;114;111;119;59],[8593]); ([83;105;103;109;97;59],[931]); ([83;109;97;108;108;67;105;114;99;108;101;59],[8728])];
  [([83;111;112;102;59],[120138]); ([83;113;114;116;59],[8730]); ([83;113;117;97;114;101;59],[9633]); ([83;113;117;97;114;101;73;110;116;101;114;115;101;99;116;105;111;110;59],[8851]); ([83;113;117;97;114;101;83;117;98;115;101;116;59],[8847]); ([83;113;117;97;114;101;83;117;98;115;101;116;69;113;117;97;108;59],[8849]); ([83;113;117;97;114;101;83;117;112;101;114;115;101;116;59],[8848]); ([83;113;117;97;114;101;83;117;112;101;114;115;101;116;69;113;117;97;108;59],[8850]); ([83;113;117;97;114;101;85;110;105;111;110;59],[8852]); ([83;115;99;114;59],[119982]); ([83;116;97;114;59],[8902]); ([83;117;98;59],[8912]); ([83;117;98;115;101;116;59],[8912]); ([83;117;98;115;101;116;69;113;117;97;108;59],[8838]); ([83;117;99;99;101;101;100;115;59],[8827]); ([83;117;99;99;101;101;100;115;69;113;117;97;108;59],[10928]); ([83;117;99;99;101;101;100;115;83;108;97;110;116;69;113;117;97;108;59],[8829]); ([83;117;99;99;101;101;100;115;84;105;108;100;101;59],[8831]); ([83;117;99;104;84;104;97;116;59],[8715]); ([83;117;109;59],[8721])];
  [([83;117;112;59],[8913]); ([83;117;112;101;114;115;101;116;59],[8835]); ([83;117;112;101;114;115;101;116;69;113;117;97;108;59],[8839]); ([83;117;112;115;101;116;59],[8913]); ([84;72;79;82;78],[222]); ([84;72;79;82;78;59],[222]); ([84;82;65;68;69;59],[8482]); ([84;83;72;99;121;59],[1035]); ([84;83;99;121;59],[1062]); ([84;97;98;59],[9]); ([84;97;117;59],[932]); ([84;99;97;114;111;110;59],[356]); ([84;99;101;100;105;108;59],[354]); ([84;99;121;59],[1058]); ([84;102;114;59],[120087]); ([84;104;101;114;101;102;111;114;101;59],[8756]); ([84;104;101;116;97;59],[920]); ([84;104;105;99;107;83;112;97;99;101;59],[8287;8202]); ([84;104;105;110;83;112;97;99;101;59],[8201]); ([84;105;108;100;101;59],[8764])];
  [([84;105;108;100;101;69;113;117;97;108;59],[8771]); ([84;105;108;100;101;70;117;108;108;69;113;117;97;108;59],[8773]); ([84;105;108;100;101;84;105;108;100;101;59],[8776]); ([84;111;112;102;59],[120139]); ([84;114;105;112;108;101;68;111;116;59],[8411]); ([84;115;99;114;59],[119983]); ([84;115;116;114;111;107;59],[358]); ([85;97;99;117;116;101],[218]); ([85;97;99;117;116;101;59],[218]); ([85;97;114;114;59],[8607]); ([85;97;114;114;111;99;105;114;59],[10569]); ([85;98;114;99;121;59],[1038]); ([85;98;114;101;118;101;59],[364]); ([85;99;105;114;99],[219]); ([85;99;105;114;99;59],[219]); ([85;99;121;59],[1059]); ([85;100;98;108;97;99;59],[368]); ([85;102;114;59],[120088]); ([85;103;114;97;118;101],[217]); ([85;103;114;97;118;101;59],[217])];
  [([85;109;97;99;114;59],[362]); ([85;110;100;101;114;66;97;114;59],[95]); ([85;110;100;101;114;66;114;97;99;101;59],[9183]); ([85;110;100;101;114;66;114;97;99;107;101;116;59],[9141]); ([85;110;100;101;114;80;97;114;101;110;116;104;101;115;105;115;59],[9181]); ([85;110;105;111;110;59],[8899]); ([85;110;105;111;110;80;108;117;115;59],[8846]); ([85;111;103;111;110;59],[370]); ([85;111;112;102;59],[120140]); ([85;112;65;114;114;111;119;59],[8593]); ([85;112;65;114;114;111;119;66;97;114;59],[10514]); ([85;112;65;114;114;111;119;68;111;119;110;65;114;114;111;119;59],[8645]); ([85;112;68;111;119;110;65;114;114;111;119;59],[8597]); ([85;112;69;113;117;105;108;105;98;114;105;117;109;59],[10606]); ([85;112;84;101;101;59],[8869]); ([85;112;84;101;101;65;114;114;111;119;59],[8613]); ([85;112;97;114;114;111;119;59],[8657]); ([85;112;100;111;119;110;97;114;114;111;119;59],[8661]); ([85;112;112;101;114;76;101;102;116;65;114;114;111;119;59],[8598]); ([85;112;112;101;114;82;105;103;104;116;65;114;114;111;119;59],[8599])];
  [([85;112;115;105;59],[978]); ([85;112;115;105;108;111;110;59],[933]); ([85;114;105;110;103;59],[366]); ([85;115;99;114;59],[119984]); ([85;116;105;108;100;101;59],[360]); ([85;117;109;108],[220]); ([85;117;109;108;59],[220]); ([86;68;97;115;104;59],[8875]); ([86;98;97;114;59],[10987]); ([86;99;121;59],[1042]); ([86;100;97;115;104;59],[8873]); ([86;100;97;115;104;108;59],[10982]); ([86;101;101;59],[8897]); ([86;101;114;98;97;114;59],[8214]); ([86;101;114;116;59],[8214]); ([86;101;114;116;105;99;97;108;66;97;114;59],[8739]); ([86;101;114;116;105;99;97;108;76;105;110;101;59],[124]); ([86;101;114;116;105;99;97;108;83;101;112;97;114;97;116;111;114;59],[10072]); ([86;101;114;116;105;99;97;108;84;105;108;100;101;59],[8768]); ([86;101;114;121;84;104;105;110;83;112;97;99;101;59],[8202])];
  [([86;102;114;59],[120089]); ([86;111;112;102;59],[120141]); ([86;115;99;114;59],[119985]); ([86;118;100;97;115;104;59],[8874]); ([87;99;105;114;99;59],[372]); ([87;101;100;103;101;59],[8896]); ([87;102;114;59],[120090]); ([87;111;112;102;59],[120142]); ([87;115;99;114;59],[119986]); ([88;102;114;59],[120091]); ([88;105;59],[926]); ([88;111;112;102;59],[120143]); ([88;115;99;114;59],[119987]); ([89;65;99;121;59],[1071]); ([89;73;99;121;59],[1031]); ([89;85;99;121;59],[1070]); ([89;97;99;117;116;101],[221]); ([89;97;99;117;116;101;59],[221]); ([89;99;105;114;99;59],[374]); ([89;99;121;59],[1067])];
  [([89;102;114;59],[120092]); ([89;111;112;102;59],[120144]); ([89;115;99;114;59],[119988]); ([89;117;109;108;59],[376]); ([90;72;99;121;59],[1046]); ([90;97;99;117;116;101;59],[377]); ([90;99;97;114;111;110;59],[381]); ([90;99;121;59],[1047]); ([90;100;111;116;59],[379]); ([90;101;114;111;87;105;100;116;104;83;112;97;99;101;59],[8203]); ([90;101;116;97;59],[918]); ([90;102;114;59],[8488]); ([90;111;112;102;59],[8484]); ([90;115;99;114;59],[119989]); ([97;97;99;117;116;101],[225]); ([97;97;99;117;116;101;59],[225]); ([97;98;114;101;118;101;59],[259]); ([97;99;59],[8766]); ([97;99;69;59],[8766;819]); ([97;99;100;59],[8767])];
  [([97;99;105;114;99],[226]); ([97;99;105;114;99;59],[226]); ([97;99;117;116;101],[180]); ([97;99;117;116;101;59],[180]); ([97;99;121;59],[1072]); ([97;101;108;105;103],[230]); ([97;101;108;105;103;59],[230]); ([97;102;59],[8289]); ([97;102;114;59],[120094]); ([97;103;114;97;118;101],[224]); ([97;103;114;97;118;101;59],[224]); ([97;108;101;102;115;121;109;59],[8501]); ([97;108;101;112;104;59],[8501]); ([97;108;112;104;97;59],[945]); ([97;109;97;99;114;59],[257]); ([97;109;97;108;103;59],[10815]); ([97;109;112],[38]); ([97;109;112;59],[38]); ([97;110;100;59],[8743]); ([97;110;100;97;110;100;59],[10837])];
  [([97;110;100;100;59],[10844]); ([97;110;100;115;108;111;112;101;59],[10840]); ([97;110;100;118;59],[10842]); ([97;110;103;59],[8736]); ([97;110;103;101;59],[10660]); ([97;110;103;108;101;59],[8736]); ([97;110;103;109;115;100;59],[8737]); ([97;110;103;109;115;100;97;97;59],[10664]); ([97;110;103;109;115;100;97;98;59],[10665]); ([97;110;103;109;115;100;97;99;59],[10666]); ([97;110;103;109;115;100;97;100;59],[10667]); ([97;110;103;109;115;100;97;101;59],[10668]); ([97;110;103;109;115;100;97;102;59],[10669]); ([97;110;103;109;115;100;97;103;59],[10670]); ([97;110;103;109;115;100;97;104;59],[10671]); ([97;110;103;114;116;59],[8735]); ([97;110;103;114;116;118;98;59],[8894]); ([97;110;103;114;116;118;98;100;59],[10653]); ([97;110;103;115;112;104;59],[8738]); ([97;110;103;115;116;59],[197])];
  [([97;110;103;122;97;114;114;59],[9084]); ([97;111;103;111;110;59],[261]); ([97;111;112;102;59],[120146]); ([97;112;59],[8776]); ([97;112;69;59],[10864]); ([97;112;97;99;105;114;59],[10863]); ([97;112;101;59],[8778]); ([97;112;105;100;59],[8779]); ([97;112;111;115;59],[39]); ([97;112;112;114;111;120;59],[8776]); ([97;112;112;114;111;120;101;113;59],[8778]); ([97;114;105;110;103],[229]); ([97;114;105;110;103;59],[229]); ([97;115;99;114;59],[119990]); ([97;115;116;59],[42]); ([97;115;121;109;112;59],[8776]); ([97;115;121;109;112;101;113;59],[8781]); ([97;116;105;108;100;101],[227]); ([97;116;105;108;100;101;59],[227]); ([97;117;109;108],[228])];
  [([97;117;109;108;59],[228]); ([97;119;99;111;110;105;110;116;59],[8755]); ([97;119;105;110;116;59],[10769]); ([98;78;111;116;59],[10989]); ([98;97;99;107;99;111;110;103;59],[8780]); ([98;97;99;107;101;112;115;105;108;111;110;59],[1014]); ([98;97;99;107;112;114;105;109;101;59],[8245]); ([98;97;99;107;115;105;109;59],[8765]); ([98;97;99;107;115;105;109;101;113;59],[8909]); ([98;97;114;118;101;101;59],[8893]); ([98;97;114;119;101;100;59],[8965]); ([98;97;114;119;101;100;103;101;59],[8965]); ([98;98;114;107;59],[9141]); ([98;98;114;107;116;98;114;107;59],[9142]); ([98;99;111;110;103;59],[8780]); ([98;99;121;59],[1073]); ([98;100;113;117;111;59],[8222]); ([98;101;99;97;117;115;59],[8757]); ([98;101;99;97;117;115;101;59],[8757]); ([98;101;109;112;116;121;118;59],[10672])];
  [([98;101;112;115;105;59],[1014]); ([98;101;114;110;111;117;59],[8492]); ([98;101;116;97;59],[946]); ([98;101;116;104;59],[8502]); ([98;101;116;119;101;101;110;59],[8812]); ([98;102;114;59],[120095]); ([98;105;103;99;97;112;59],[8898]); ([98;105;103;99;105;114;99;59],[9711]); ([98;105;103;99;117;112;59],[8899]); ([98;105;103;111;100;111;116;59],[10752]); ([98;105;103;111;112;108;117;115;59],[10753]); ([98;105;103;111;116;105;109;101;115;59],[10754]); ([98;105;103;115;113;99;117;112;59],[10758]); ([98;105;103;115;116;97;114;59],[9733]); ([98;105;103;116;114;105;97;110;103;108;101;100;111;119;110;59],[9661]); ([98;105;103;116;114;105;97;110;103;108;101;117;112;59],[9651]); ([98;105;103;117;112;108;117;115;59],[10756]); ([98;105;103;118;101;101;59],[8897]); ([98;105;103;119;101;100;103;101;59],[8896]); ([98;107;97;114;111;119;59],[10509])];
  [([98;108;97;99;107;108;111;122;101;110;103;101;59],[10731]); ([98;108;97;99;107;115;113;117;97;114;101;59],[9642]); ([98;108;97;99;107;116;114;105;97;110;103;108;101;59],[9652]); ([98;108;97;99;107;116;114;105;97;110;103;108;101;100;111;119;110;59],[9662]); ([98;108;97;99;107;116;114;105;97;110;103;108;101;108;101;102;116;59],[9666]); ([98;108;97;99;107;116;114;105;97;110;103;108;101;114;105;103;104;116;59],[9656]); ([98;108;97;110;107;59],[9251]); ([98;108;107;49;50;59],[9618]); ([98;108;107;49;52;59],[9617]); ([98;108;107;51;52;59],[9619]); ([98;108;111;99;107;59],[9608]); ([98;110;101;59],[61;8421]); ([98;110;101;113;117;105;118;59],[8801;8421]); ([98;110;111;116;59],[8976]); ([98;111;112;102;59],[120147]); ([98;111;116;59],[8869]); ([98;111;116;116;111;109;59],[8869]); ([98;111;119;116;105;101;59],[8904]); ([98;111;120;68;76;59],[9559]); ([98;111;120;68;82;59],[9556])];
  [([98;111;120;68;108;59],[9558]); ([98;111;120;68;114;59],[9555]); ([98;111;120;72;59],[9552]); ([98;111;120;72;68;59],[9574]); ([98;111;120;72;85;59],[9577]); ([98;111;120;72;100;59],[9572]); ([98;111;120;72;117;59],[9575]); ([98;111;120;85;76;59],[9565]); ([98;111;120;85;82;59],[9562]); ([98;111;120;85;108;59],[9564]); ([98;111;120;85;114;59],[9561]); ([98;111;120;86;59],[9553]); ([98;111;120;86;72;59],[9580]); ([98;111;120;86;76;59],[9571]); ([98;111;120;86;82;59],[9568]); ([98;111;120;86;104;59],[9579]); ([98;111;120;86;108;59],[9570]); ([98;111;120;86;114;59],[9567]); ([98;111;120;98;111;120;59],[10697]); ([98;111;120;100;76;59],[9557])];
  [([98;111;120;100;82;59],[9554]); ([98;111;120;100;108;59],[9488]); ([98;111;120;100;114;59],[9484]); ([98;111;120;104;59],[9472]); ([98;111;120;104;68;59],[9573]); ([98;111;120;104;85;59],[9576]); ([98;111;120;104;100;59],[9516]); ([98;111;120;104;117;59],[9524]); ([98;111;120;109;105;110;117;115;59],[8863]); ([98;111;120;112;108;117;115;59],[8862]); ([98;111;120;116;105;109;101;115;59],[8864]); ([98;111;120;117;76;59],[9563]); ([98;111;120;117;82;59],[9560]); ([98;111;120;117;108;59],[9496]); ([98;111;120;117;114;59],[9492]); ([98;111;120;118;59],[9474]); ([98;111;120;118;72;59],[9578]); ([98;111;120;118;76;59],[9569]); ([98;111;120;118;82;59],[9566]); ([98;111;120;118;104;59],[9532])];
  [([98;111;120;118;108;59],[9508]); ([98;111;120;118;114;59],[9500]); ([98;112;114;105;109;101;59],[8245]); ([98;114;101;118;101;59],[728]); ([98;114;118;98;97;114],[166]); ([98;114;118;98;97;114;59],[166]); ([98;115;99;114;59],[119991]); ([98;115;101;109;105;59],[8271]); ([98;115;105;109;59],[8765]); ([98;115;105;109;101;59],[8909]); ([98;115;111;108;59],[92]); ([98;115;111;108;98;59],[10693]); ([98;115;111;108;104;115;117;98;59],[10184]); ([98;117;108;108;59],[8226]); ([98;117;108;108;101;116;59],[8226]); ([98;117;109;112;59],[8782]); ([98;117;109;112;69;59],[10926]); ([98;117;109;112;101;59],[8783]); ([98;117;109;112;101;113;59],[8783]); ([99;97;99;117;116;101;59],[263])];
  [([99;97;112;59],[8745]); ([99;97;112;97;110;100;59],[10820]); ([99;97;112;98;114;99;117;112;59],[10825]); ([99;97;112;99;97;112;59],[10827]); ([99;97;112;99;117;112;59],[10823]); ([99;97;112;100;111;116;59],[10816]); ([99;97;112;115;59],[8745;65024]); ([99;97;114;101;116;59],[8257]); ([99;97;114;111;110;59],[711]); ([99;99;97;112;115;59],[10829]); ([99;99;97;114;111;110;59],[269]); ([99;99;101;100;105;108],[231]); ([99;99;101;100;105;108;59],[231]); ([99;99;105;114;99;59],[265]); ([99;99;117;112;115;59],[10828]); ([99;99;117;112;115;115;109;59],[10832]); ([99;100;111;116;59],[267]); ([99;101;100;105;108],[184]); ([99;101;100;105;108;59],[184]); ([99;101;109;112;116;121;118;59],[10674])];
  [([99;101;110;116],[162]); ([99;101;110;116;59],[162]); ([99;101;110;116;101;114;100;111;116;59],[183]); ([99;102;114;59],[120096]); ([99;104;99;121;59],[1095]); ([99;104;101;99;107;59],[10003]); ([99;104;101;99;107;109;97;114;107;59],[10003]); ([99;104;105;59],[967]); ([99;105;114;59],[9675]); ([99;105;114;69;59],[10691]); ([99;105;114;99;59],[710]); ([99;105;114;99;101;113;59],[8791]); ([99;105;114;99;108;101;97;114;114;111;119;108;101;102;116;59],[8634]); ([99;105;114;99;108;101;97;114;114;111;119;114;105;103;104;116;59],[8635]); ([99;105;114;99;108;101;100;82;59],[174]); ([99;105;114;99;108;101;100;83;59],[9416]); ([99;105;114;99;108;101;100;97;115;116;59],[8859]); ([99;105;114;99;108;101;100;99;105;114;99;59],[8858]); ([99;105;114;99;108;101;100;100;97;115;104;59],[8861]); ([99;105;114;101;59],[8791])];
  [([99;105;114;102;110;105;110;116;59],[10768]); ([99;105;114;109;105;100;59],[10991]); ([99;105;114;115;99;105;114;59],[10690]); ([99;108;117;98;115;59],[9827]); ([99;108;117;98;115;117;105;116;59],[9827]); ([99;111;108;111;110;59],[58]); ([99;111;108;111;110;101;59],[8788]); ([99;111;108;111;110;101;113;59],[8788]); ([99;111;109;109;97;59],[44]); ([99;111;109;109;97;116;59],[64]); ([99;111;109;112;59],[8705]); ([99;111;109;112;102;110;59],[8728]); ([99;111;109;112;108;101;109;101;110;116;59],[8705]); ([99;111;109;112;108;101;120;101;115;59],[8450]); ([99;111;110;103;59],[8773]); ([99;111;110;103;100;111;116;59],[10861]); ([99;111;110;105;110;116;59],[8750]); ([99;111;112;102;59],[120148]); ([99;111;112;114;111;100;59],[8720]); ([99;111;112;121],[169])];
  [([99;111;112;121;59],[169]); ([99;111;112;121;115;114;59],[8471]); ([99;114;97;114;114;59],[8629]); ([99;114;111;115;115;59],[10007]); ([99;115;99;114;59],[119992]); ([99;115;117;98;59],[10959]); ([99;115;117;98;101;59],[10961]); ([99;115;117;112;59],[10960]); ([99;115;117;112;101;59],[10962]); ([99;116;100;111;116;59],[8943]); ([99;117;100;97;114;114;108;59],[10552]); ([99;117;100;97;114;114;114;59],[10549]); ([99;117;101;112;114;59],[8926]); ([99;117;101;115;99;59],[8927]); ([99;117;108;97;114;114;59],[8630]); ([99;117;108;97;114;114;112;59],[10557]); ([99;117;112;59],[8746]); ([99;117;112;98;114;99;97;112;59],[10824]); ([99;117;112;99;97;112;59],[10822]); ([99;117;112;99;117;112;59],[10826])];
  [([99;117;112;100;111;116;59],[8845]); ([99;117;112;111;114;59],[10821]); ([99;117;112;115;59],[8746;65024]); ([99;117;114;97;114;114;59],[8631]); ([99;117;114;97;114;114;109;59],[10556]); ([99;117;114;108;121;101;113;112;114;101;99;59],[8926]); ([99;117;114;108;121;101;113;115;117;99;99;59],[8927]); ([99;117;114;108;121;118;101;101;59],[8910]); ([99;117;114;108;121;119;101;100;103;101;59],[8911]); ([99;117;114;114;101;110],[164]); ([99;117;114;114;101;110;59],[164]); ([99;117;114;118;101;97;114;114;111;119;108;101;102;116;59],[8630]); ([99;117;114;118;101;97;114;114;111;119;114;105;103;104;116;59],[8631]); ([99;117;118;101;101;59],[8910]); ([99;117;119;101;100;59],[8911]); ([99;119;99;111;110;105;110;116;59],[8754]); ([99;119;105;110;116;59],[8753]); ([99;121;108;99;116;121;59],[9005]); ([100;65;114;114;59],[8659]); ([100;72;97;114;59],[10597])];
  [([100;97;103;103;101;114;59],[8224]); ([100;97;108;101;116;104;59],[8504]); ([100;97;114;114;59],[8595]); ([100;97;115;104;59],[8208]); ([100;97;115;104;118;59],[8867]); ([100;98;107;97;114;111;119;59],[10511]); ([100;98;108;97;99;59],[733]); ([100;99;97;114;111;110;59],[271]); ([100;99;121;59],[1076]); ([100;100;59],[8518]); ([100;100;97;103;103;101;114;59],[8225]); ([100;100;97;114;114;59],[8650]); ([100;100;111;116;115;101;113;59],[10871]); ([100;101;103],[176]); ([100;101;103;59],[176]); ([100;101;108;116;97;59],[948]); ([100;101;109;112;116;121;118;59],[10673]); ([100;102;105;115;104;116;59],[10623]); ([100;102;114;59],[120097]); ([100;104;97;114;108;59],[8643])];
  [([100;104;97;114;114;59],[8642]); ([100;105;97;109;59],[8900]); ([100;105;97;109;111;110;100;59],[8900]); ([100;105;97;109;111;110;100;115;117;105;116;59],[9830]); ([100;105;97;109;115;59],[9830]); ([100;105;101;59],[168]); ([100;105;103;97;109;109;97;59],[989]); ([100;105;115;105;110;59],[8946]); ([100;105;118;59],[247]); ([100;105;118;105;100;101],[247]); ([100;105;118;105;100;101;59],[247]); ([100;105;118;105;100;101;111;110;116;105;109;101;115;59],[8903]); ([100;105;118;111;110;120;59],[8903]); ([100;106;99;121;59],[1106]); ([100;108;99;111;114;110;59],[8990]); ([100;108;99;114;111;112;59],[8973]); ([100;111;108;108;97;114;59],[36]); ([100;111;112;102;59],[120149]); ([100;111;116;59],[729]); ([100;111;116;101;113;59],[8784])];
  [([100;111;116;101;113;100;111;116;59],[8785]); ([100;111;116;109;105;110;117;115;59],[8760]); ([100;111;116;112;108;117;115;59],[8724]); ([100;111;116;115;113;117;97;114;101;59],[8865]); ([100;111;117;98;108;101;98;97;114;119;101;100;103;101;59],[8966]); ([100;111;119;110;97;114;114;111;119;59],[8595]); ([100;111;119;110;100;111;119;110;97;114;114;111;119;115;59],[8650]); ([100;111;119;110;104;97;114;112;111;111;110;108;101;102;116;59],[8643]); ([100;111;119;110;104;97;114;112;111;111;110;114;105;103;104;116;59],[8642]); ([100;114;98;107;97;114;111;119;59],[10512]); ([100;114;99;111;114;110;59],[8991]); ([100;114;99;114;111;112;59],[8972]); ([100;115;99;114;59],[119993]); ([100;115;99;121;59],[1109]); ([100;115;111;108;59],[10742]); ([100;115;116;114;111;107;59],[273]); ([100;116;100;111;116;59],[8945]); ([100;116;114;105;59],[9663]); ([100;116;114;105;102;59],[9662]); ([100;117;97;114;114;59],[8693])];
  [([100;117;104;97;114;59],[10607]); ([100;119;97;110;103;108;101;59],[10662]); ([100;122;99;121;59],[1119]); ([100;122;105;103;114;97;114;114;59],[10239]); ([101;68;68;111;116;59],[10871]); ([101;68;111;116;59],[8785]); ([101;97;99;117;116;101],[233]); ([101;97;99;117;116;101;59],[233]); ([101;97;115;116;101;114;59],[10862]); ([101;99;97;114;111;110;59],[283]); ([101;99;105;114;59],[8790]); ([101;99;105;114;99],[234]); ([101;99;105;114;99;59],[234]); ([101;99;111;108;111;110;59],[8789]); ([101;99;121;59],[1101]); ([101;100;111;116;59],[279]); ([101;101;59],[8519]); ([101;102;68;111;116;59],[8786]); ([101;102;114;59],[120098]); ([101;103;59],[10906])];
  [([101;103;114;97;118;101],[232]); ([101;103;114;97;118;101;59],[232]); ([101;103;115;59],[10902]); ([101;103;115;100;111;116;59],[10904]); ([101;108;59],[10905]); ([101;108;105;110;116;101;114;115;59],[9191]); ([101;108;108;59],[8467]); ([101;108;115;59],[10901]); ([101;108;115;100;111;116;59],[10903]); ([101;109;97;99;114;59],[275]); ([101;109;112;116;121;59],[8709]); ([101;109;112;116;121;115;101;116;59],[8709]); ([101;109;112;116;121;118;59],[8709]); ([101;109;115;112;49;51;59],[8196]); ([101;109;115;112;49;52;59],[8197]); ([101;109;115;112;59],[8195]); ([101;110;103;59],[331]); ([101;110;115;112;59],[8194]); ([101;111;103;111;110;59],[281]); ([101;111;112;102;59],[120150])];
  [([101;112;97;114;59],[8917]); ([101;112;97;114;115;108;59],[10723]); ([101;112;108;117;115;59],[10865]); ([101;112;115;105;59],[949]); ([101;112;115;105;108;111;110;59],[949]); ([101;112;115;105;118;59],[1013]); ([101;113;99;105;114;99;59],[8790]); ([101;113;99;111;108;111;110;59],[8789]); ([101;113;115;105;109;59],[8770]); ([101;113;115;108;97;110;116;103;116;114;59],[10902]); ([101;113;115;108;97;110;116;108;101;115;115;59],[10901]); ([101;113;117;97;108;115;59],[61]); ([101;113;117;101;115;116;59],[8799]); ([101;113;117;105;118;59],[8801]); ([101;113;117;105;118;68;68;59],[10872]); ([101;113;118;112;97;114;115;108;59],[10725]); ([101;114;68;111;116;59],[8787]); ([101;114;97;114;114;59],[10609]); ([101;115;99;114;59],[8495]); ([101;115;100;111;116;59],[8784])];
  [([101;115;105;109;59],[8770]); ([101;116;97;59],[951]); ([101;116;104],[240]); ([101;116;104;59],[240]); ([101;117;109;108],[235]); ([101;117;109;108;59],[235]); ([101;117;114;111;59],[8364]); ([101;120;99;108;59],[33]); ([101;120;105;115;116;59],[8707]); ([101;120;112;101;99;116;97;116;105;111;110;59],[8496]); ([101;120;112;111;110;101;110;116;105;97;108;101;59],[8519]); ([102;97;108;108;105;110;103;100;111;116;115;101;113;59],[8786]); ([102;99;121;59],[1092]); ([102;101;109;97;108;101;59],[9792]); ([102;102;105;108;105;103;59],[64259]); ([102;102;108;105;103;59],[64256]); ([102;102;108;108;105;103;59],[64260]); ([102;102;114;59],[120099]); ([102;105;108;105;103;59],[64257]); ([102;106;108;105;103;59],[102;106])];
  [([102;108;97;116;59],[9837]); ([102;108;108;105;103;59],[64258]); ([102;108;116;110;115;59],[9649]); ([102;110;111;102;59],[402]); ([102;111;112;102;59],[120151]); ([102;111;114;97;108;108;59],[8704]); ([102;111;114;107;59],[8916]); ([102;111;114;107;118;59],[10969]); ([102;112;97;114;116;105;110;116;59],[10765]); ([102;114;97;99;49;50],[189]); ([102;114;97;99;49;50;59],[189]); ([102;114;97;99;49;51;59],[8531]); ([102;114;97;99;49;52],[188]); ([102;114;97;99;49;52;59],[188]); ([102;114;97;99;49;53;59],[8533]); ([102;114;97;99;49;54;59],[8537]); ([102;114;97;99;49;56;59],[8539]); ([102;114;97;99;50;51;59],[8532]); ([102;114;97;99;50;53;59],[8534]); ([102;114;97;99;51;52],[190])];
  [([102;114;97;99;51;52;59],[190]); ([102;114;97;99;51;53;59],[8535]); ([102;114;97;99;51;56;59],[8540]); ([102;114;97;99;52;53;59],[8536]); ([102;114;97;99;53;54;59],[8538]); ([102;114;97;99;53;56;59],[8541]); ([102;114;97;99;55;56;59],[8542]); ([102;114;97;115;108;59],[8260]); ([102;114;111;119;110;59],[8994]); ([102;115;99;114;59],[119995]); ([103;69;59],[8807]); ([103;69;108;59],[10892]); ([103;97;99;117;116;101;59],[501]); ([103;97;109;109;97;59],[947]); ([103;97;109;109;97;100;59],[989]); ([103;97;112;59],[10886]); ([103;98;114;101;118;101;59],[287]); ([103;99;105;114;99;59],[285]); ([103;99;121;59],[1075]); ([103;100;111;116;59],[289])];
  [([103;101;59],[8805]); ([103;101;108;59],[8923]); ([103;101;113;59],[8805]); ([103;101;113;113;59],[8807]); ([103;101;113;115;108;97;110;116;59],[10878]); ([103;101;115;59],[10878]); ([103;101;115;99;99;59],[10921]); ([103;101;115;100;111;116;59],[10880]); ([103;101;115;100;111;116;111;59],[10882]); ([103;101;115;100;111;116;111;108;59],[10884]); ([103;101;115;108;59],[8923;65024]); ([103;101;115;108;101;115;59],[10900]); ([103;102;114;59],[120100]); ([103;103;59],[8811]); ([103;103;103;59],[8921]); ([103;105;109;101;108;59],[8503]); ([103;106;99;121;59],[1107]); ([103;108;59],[8823]); ([103;108;69;59],[10898]); ([103;108;97;59],[10917])];
  [([103;108;106;59],[10916]); ([103;110;69;59],[8809]); ([103;110;97;112;59],[10890]); ([103;110;97;112;112;114;111;120;59],[10890]); ([103;110;101;59],[10888]); ([103;110;101;113;59],[10888]); ([103;110;101;113;113;59],[8809]); ([103;110;115;105;109;59],[8935]); ([103;111;112;102;59],[120152]); ([103;114;97;118;101;59],[96]); ([103;115;99;114;59],[8458]); ([103;115;105;109;59],[8819]); ([103;115;105;109;101;59],[10894]); ([103;115;105;109;108;59],[10896]); ([103;116],[62]); ([103;116;59],[62]); ([103;116;99;99;59],[10919]); ([103;116;99;105;114;59],[10874]); ([103;116;100;111;116;59],[8919]); ([103;116;108;80;97;114;59],[10645])];
  [([103;116;113;117;101;115;116;59],[10876]); ([103;116;114;97;112;112;114;111;120;59],[10886]); ([103;116;114;97;114;114;59],[10616]); ([103;116;114;100;111;116;59],[8919]); ([103;116;114;101;113;108;101;115;115;59],[8923]); ([103;116;114;101;113;113;108;101;115;115;59],[10892]); ([103;116;114;108;101;115;115;59],[8823]); ([103;116;114;115;105;109;59],[8819]); ([103;118;101;114;116;110;101;113;113;59],[8809;65024]); ([103;118;110;69;59],[8809;65024]); ([104;65;114;114;59],[8660]); ([104;97;105;114;115;112;59],[8202]); ([104;97;108;102;59],[189]); ([104;97;109;105;108;116;59],[8459]); ([104;97;114;100;99;121;59],[1098]); ([104;97;114;114;59],[8596]); ([104;97;114;114;99;105;114;59],[10568]); ([104;97;114;114;119;59],[8621]); ([104;98;97;114;59],[8463]); ([104;99;105;114;99;59],[293])];
  [([104;101;97;114;116;115;59],[9829]); ([104;101;97;114;116;115;117;105;116;59],[9829]); ([104;101;108;108;105;112;59],[8230]); ([104;101;114;99;111;110;59],[8889]); ([104;102;114;59],[120101]); ([104;107;115;101;97;114;111;119;59],[10533]); ([104;107;115;119;97;114;111;119;59],[10534]); ([104;111;97;114;114;59],[8703]); ([104;111;109;116;104;116;59],[8763]); ([104;111;111;107;108;101;102;116;97;114;114;111;119;59],[8617]); ([104;111;111;107;114;105;103;104;116;97;114;114;111;119;59],[8618]); ([104;111;112;102;59],[120153]); ([104;111;114;98;97;114;59],[8213]); ([104;115;99;114;59],[119997]); ([104;115;108;97;115;104;59],[8463]); ([104;115;116;114;111;107;59],[295]); ([104;121;98;117;108;108;59],[8259]); ([104;121;112;104;101;110;59],[8208]); ([105;97;99;117;116;101],[237]); ([105;97;99;117;116;101;59],[237])];
  [([105;99;59],[8291]); ([105;99;105;114;99],[238]); ([105;99;105;114;99;59],[238]); ([105;99;121;59],[1080]); ([105;101;99;121;59],[1077]); ([105;101;120;99;108],[161]); ([105;101;120;99;108;59],[161]); ([105;102;102;59],[8660]); ([105;102;114;59],[120102]); ([105;103;114;97;118;101],[236]); ([105;103;114;97;118;101;59],[236]); ([105;105;59],[8520]); ([105;105;105;105;110;116;59],[10764]); ([105;105;105;110;116;59],[8749]); ([105;105;110;102;105;110;59],[10716]); ([105;105;111;116;97;59],[8489]); ([105;106;108;105;103;59],[307]); ([105;109;97;99;114;59],[299]); ([105;109;97;103;101;59],[8465]); ([105;109;97;103;108;105;110;101;59],[8464])];
  [([105;109;97;103;112;97;114;116;59],[8465]); ([105;109;97;116;104;59],[305]); ([105;109;111;102;59],[8887]); ([105;109;112;101;100;59],[437]); ([105;110;59],[8712]); ([105;110;99;97;114;101;59],[8453]); ([105;110;102;105;110;59],[8734]); ([105;110;102;105;110;116;105;101;59],[10717]); ([105;110;111;100;111;116;59],[305]); ([105;110;116;59],[8747]); ([105;110;116;99;97;108;59],[8890]); ([105;110;116;101;103;101;114;115;59],[8484]); ([105;110;116;101;114;99;97;108;59],[8890]); ([105;110;116;108;97;114;104;107;59],[10775]); ([105;110;116;112;114;111;100;59],[10812]); ([105;111;99;121;59],[1105]); ([105;111;103;111;110;59],[303]); ([105;111;112;102;59],[120154]); ([105;111;116;97;59],[953]); ([105;112;114;111;100;59],[10812])];
  [([105;113;117;101;115;116],[191]); ([105;113;117;101;115;116;59],[191]); ([105;115;99;114;59],[119998]); ([105;115;105;110;59],[8712]); ([105;115;105;110;69;59],[8953]); ([105;115;105;110;100;111;116;59],[8949]); ([105;115;105;110;115;59],[8948]); ([105;115;105;110;115;118;59],[8947]); ([105;115;105;110;118;59],[8712]); ([105;116;59],[8290]); ([105;116;105;108;100;101;59],[297]); ([105;117;107;99;121;59],[1110]); ([105;117;109;108],[239]); ([105;117;109;108;59],[239]); ([106;99;105;114;99;59],[309]); ([106;99;121;59],[1081]); ([106;102;114;59],[120103]); ([106;109;97;116;104;59],[567]); ([106;111;112;102;59],[120155]); ([106;115;99;114;59],[119999])];
  [([106;115;101;114;99;121;59],[1112]); ([106;117;107;99;121;59],[1108]); ([107;97;112;112;97;59],[954]); ([107;97;112;112;97;118;59],[1008]); ([107;99;101;100;105;108;59],[311]); ([107;99;121;59],[1082]); ([107;102;114;59],[120104]); ([107;103;114;101;101;110;59],[312]); ([107;104;99;121;59],[1093]); ([107;106;99;121;59],[1116]); ([107;111;112;102;59],[120156]); ([107;115;99;114;59],[120000]); ([108;65;97;114;114;59],[8666]); ([108;65;114;114;59],[8656]); ([108;65;116;97;105;108;59],[10523]); ([108;66;97;114;114;59],[10510]); ([108;69;59],[8806]); ([108;69;103;59],[10891]); ([108;72;97;114;59],[10594]); ([108;97;99;117;116;101;59],[314])];
  [([108;97;101;109;112;116;121;118;59],[10676]); ([108;97;103;114;97;110;59],[8466]); ([108;97;109;98;100;97;59],[955]); ([108;97;110;103;59],[10216]); ([108;97;110;103;100;59],[10641]); ([108;97;110;103;108;101;59],[10216]); ([108;97;112;59],[10885]); ([108;97;113;117;111],[171]); ([108;97;113;117;111;59],[171]); ([108;97;114;114;59],[8592]); ([108;97;114;114;98;59],[8676]); ([108;97;114;114;98;102;115;59],[10527]); ([108;97;114;114;102;115;59],[10525]); ([108;97;114;114;104;107;59],[8617]); ([108;97;114;114;108;112;59],[8619]); ([108;97;114;114;112;108;59],[10553]); ([108;97;114;114;115;105;109;59],[10611]); ([108;97;114;114;116;108;59],[8610]); ([108;97;116;59],[10923]); ([108;97;116;97;105;108;59],[10521])];
  [([108;97;116;101;59],[10925]); ([108;97;116;101;115;59],[10925;65024]); ([108;98;97;114;114;59],[10508]); ([108;98;98;114;107;59],[10098]); ([108;98;114;97;99;101;59],[123]); ([108;98;114;97;99;107;59],[91]); ([108;98;114;107;101;59],[10635]); ([108;98;114;107;115;108;100;59],[10639]); ([108;98;114;107;115;108;117;59],[10637]); ([108;99;97;114;111;110;59],[318]); ([108;99;101;100;105;108;59],[316]); ([108;99;101;105;108;59],[8968]); ([108;99;117;98;59],[123]); ([108;99;121;59],[1083]); ([108;100;99;97;59],[10550]); ([108;100;113;117;111;59],[8220]); ([108;100;113;117;111;114;59],[8222]); ([108;100;114;100;104;97;114;59],[10599]); ([108;100;114;117;115;104;97;114;59],[10571]); ([108;100;115;104;59],[8626])];
  [([108;101;59],[8804]); ([108;101;102;116;97;114;114;111;119;59],[8592]); ([108;101;102;116;97;114;114;111;119;116;97;105;108;59],[8610]); ([108;101;102;116;104;97;114;112;111;111;110;100;111;119;110;59],[8637]); ([108;101;102;116;104;97;114;112;111;111;110;117;112;59],[8636]); ([108;101;102;116;108;101;102;116;97;114;114;111;119;115;59],[8647]); ([108;101;102;116;114;105;103;104;116;97;114;114;111;119;59],[8596]); ([108;101;102;116;114;105;103;104;116;97;114;114;111;119;115;59],[8646]); ([108;101;102;116;114;105;103;104;116;104;97;114;112;111;111;110;115;59],[8651]); ([108;101;102;116;114;105;103;104;116;115;113;117;105;103;97;114;114;111;119;59],[8621]); ([108;101;102;116;116;104;114;101;101;116;105;109;101;115;59],[8907]); ([108;101;103;59],[8922]); ([108;101;113;59],[8804]); ([108;101;113;113;59],[8806]); ([108;101;113;115;108;97;110;116;59],[10877]); ([108;101;115;59],[10877]); ([108;101;115;99;99;59],[10920]); ([108;101;115;100;111;116;59],[10879]); ([108;101;115;100;111;116;111;59],[10881]); ([108;101;115;100;111;116;111;114;59],[10883])];
  [([108;101;115;103;59],[8922;65024]); ([108;101;115;103;101;115;59],[10899]); ([108;101;115;115;97;112;112;114;111;120;59],[10885]); ([108;101;115;115;100;111;116;59],[8918]); ([108;101;115;115;101;113;103;116;114;59],[8922]); ([108;101;115;115;101;113;113;103;116;114;59],[10891]); ([108;101;115;115;103;116;114;59],[8822]); ([108;101;115;115;115;105;109;59],[8818]); ([108;102;105;115;104;116;59],[10620]); ([108;102;108;111;111;114;59],[8970]); ([108;102;114;59],[120105]); ([108;103;59],[8822]); ([108;103;69;59],[10897]); ([108;104;97;114;100;59],[8637]); ([108;104;97;114;117;59],[8636]); ([108;104;97;114;117;108;59],[10602]); ([108;104;98;108;107;59],[9604]); ([108;106;99;121;59],[1113]); ([108;108;59],[8810]); ([108;108;97;114;114;59],[8647])];
  [([108;108;99;111;114;110;101;114;59],[8990]); ([108;108;104;97;114;100;59],[10603]); ([108;108;116;114;105;59],[9722]); ([108;109;105;100;111;116;59],[320]); ([108;109;111;117;115;116;59],[9136]); ([108;109;111;117;115;116;97;99;104;101;59],[9136]); ([108;110;69;59],[8808]); ([108;110;97;112;59],[10889]); ([108;110;97;112;112;114;111;120;59],[10889]); ([108;110;101;59],[10887]); ([108;110;101;113;59],[10887]); ([108;110;101;113;113;59],[8808]); ([108;110;115;105;109;59],[8934]); ([108;111;97;110;103;59],[10220]); ([108;111;97;114;114;59],[8701]); ([108;111;98;114;107;59],[10214]); ([108;111;110;103;108;101;102;116;97;114;114;111;119;59],[10229]); ([108;111;110;103;108;101;102;116;114;105;103;104;116;97;114;114;111;119;59],[10231]); ([108;111;110;103;109;97;112;115;116;111;59],[10236]); ([108;111;110;103;114;105;103;104;116;97;114;114;111;119;59],[10230])];
  [([108;111;111;112;97;114;114;111;119;108;101;102;116;59],[8619]); ([108;111;111;112;97;114;114;111;119;114;105;103;104;116;59],[8620]); ([108;111;112;97;114;59],[10629]); ([108;111;112;102;59],[120157]); ([108;111;112;108;117;115;59],[10797]); ([108;111;116;105;109;101;115;59],[10804]); ([108;111;119;97;115;116;59],[8727]); ([108;111;119;98;97;114;59],[95]); ([108;111;122;59],[9674]); ([108;111;122;101;110;103;101;59],[9674]); ([108;111;122;102;59],[10731]); ([108;112;97;114;59],[40]); ([108;112;97;114;108;116;59],[10643]); ([108;114;97;114;114;59],[8646]); ([108;114;99;111;114;110;101;114;59],[8991]); ([108;114;104;97;114;59],[8651]); ([108;114;104;97;114;100;59],[10605]); ([108;114;109;59],[8206]); ([108;114;116;114;105;59],[8895]); ([108;115;97;113;117;111;59],[8249])];
  [([108;115;99;114;59],[120001]); ([108;115;104;59],[8624]); ([108;115;105;109;59],[8818]); ([108;115;105;109;101;59],[10893]); ([108;115;105;109;103;59],[10895]); ([108;115;113;98;59],[91]); ([108;115;113;117;111;59],[8216]); ([108;115;113;117;111;114;59],[8218]); ([108;115;116;114;111;107;59],[322]); ([108;116],[60]); ([108;116;59],[60]); ([108;116;99;99;59],[10918]); ([108;116;99;105;114;59],[10873]); ([108;116;100;111;116;59],[8918]); ([108;116;104;114;101;101;59],[8907]); ([108;116;105;109;101;115;59],[8905]); ([108;116;108;97;114;114;59],[10614]); ([108;116;113;117;101;115;116;59],[10875]); ([108;116;114;80;97;114;59],[10646]); ([108;116;114;105;59],[9667])];
  [([108;116;114;105;101;59],[8884]); ([108;116;114;105;102;59],[9666]); ([108;117;114;100;115;104;97;114;59],[10570]); ([108;117;114;117;104;97;114;59],[10598]); ([108;118;101;114;116;110;101;113;113;59],[8808;65024]); ([108;118;110;69;59],[8808;65024]); ([109;68;68;111;116;59],[8762]); ([109;97;99;114],[175]); ([109;97;99;114;59],[175]); ([109;97;108;101;59],[9794]); ([109;97;108;116;59],[10016]); ([109;97;108;116;101;115;101;59],[10016]); ([109;97;112;59],[8614]); ([109;97;112;115;116;111;59],[8614]); ([109;97;112;115;116;111;100;111;119;110;59],[8615]); ([109;97;112;115;116;111;108;101;102;116;59],[8612]); ([109;97;112;115;116;111;117;112;59],[8613]); ([109;97;114;107;101;114;59],[9646]); ([109;99;111;109;109;97;59],[10793]); ([109;99;121;59],[1084])];
  [([109;100;97;115;104;59],[8212]); ([109;101;97;115;117;114;101;100;97;110;103;108;101;59],[8737]); ([109;102;114;59],[120106]); ([109;104;111;59],[8487]); ([109;105;99;114;111],[181]); ([109;105;99;114;111;59],[181]); ([109;105;100;59],[8739]); ([109;105;100;97;115;116;59],[42]); ([109;105;100;99;105;114;59],[10992]); ([109;105;100;100;111;116],[183]); ([109;105;100;100;111;116;59],[183]); ([109;105;110;117;115;59],[8722]); ([109;105;110;117;115;98;59],[8863]); ([109;105;110;117;115;100;59],[8760]); ([109;105;110;117;115;100;117;59],[10794]); ([109;108;99;112;59],[10971]); ([109;108;100;114;59],[8230]); ([109;110;112;108;117;115;59],[8723]); ([109;111;100;101;108;115;59],[8871]); ([109;111;112;102;59],[120158])];
  [([109;112;59],[8723]); ([109;115;99;114;59],[120002]); ([109;115;116;112;111;115;59],[8766]); ([109;117;59],[956]); ([109;117;108;116;105;109;97;112;59],[8888]); ([109;117;109;97;112;59],[8888]); ([110;71;103;59],[8921;824]); ([110;71;116;59],[8811;8402]); ([110;71;116;118;59],[8811;824]); ([110;76;101;102;116;97;114;114;111;119;59],[8653]); ([110;76;101;102;116;114;105;103;104;116;97;114;114;111;119;59],[8654]); ([110;76;108;59],[8920;824]); ([110;76;116;59],[8810;8402]); ([110;76;116;118;59],[8810;824]); ([110;82;105;103;104;116;97;114;114;111;119;59],[8655]); ([110;86;68;97;115;104;59],[8879]); ([110;86;100;97;115;104;59],[8878]); ([110;97;98;108;97;59],[8711]); ([110;97;99;117;116;101;59],[324]); ([110;97;110;103;59],[8736;8402])];
  [([110;97;112;59],[8777]); ([110;97;112;69;59],[10864;824]); ([110;97;112;105;100;59],[8779;824]); ([110;97;112;111;115;59],[329]); ([110;97;112;112;114;111;120;59],[8777]); ([110;97;116;117;114;59],[9838]); ([110;97;116;117;114;97;108;59],[9838]); ([110;97;116;117;114;97;108;115;59],[8469]); ([110;98;115;112],[160]); ([110;98;115;112;59],[160]); ([110;98;117;109;112;59],[8782;824]); ([110;98;117;109;112;101;59],[8783;824]); ([110;99;97;112;59],[10819]); ([110;99;97;114;111;110;59],[328]); ([110;99;101;100;105;108;59],[326]); ([110;99;111;110;103;59],[8775]); ([110;99;111;110;103;100;111;116;59],[10861;824]); ([110;99;117;112;59],[10818]); ([110;99;121;59],[1085]); ([110;100;97;115;104;59],[8211])];
  [([110;101;59],[8800]); ([110;101;65;114;114;59],[8663]); ([110;101;97;114;104;107;59],[10532]); ([110;101;97;114;114;59],[8599]); ([110;101;97;114;114;111;119;59],[8599]); ([110;101;100;111;116;59],[8784;824]); ([110;101;113;117;105;118;59],[8802]); ([110;101;115;101;97;114;59],[10536]); ([110;101;115;105;109;59],[8770;824]); ([110;101;120;105;115;116;59],[8708]); ([110;101;120;105;115;116;115;59],[8708]); ([110;102;114;59],[120107]); ([110;103;69;59],[8807;824]); ([110;103;101;59],[8817]); ([110;103;101;113;59],[8817]); ([110;103;101;113;113;59],[8807;824]); ([110;103;101;113;115;108;97;110;116;59],[10878;824]); ([110;103;101;115;59],[10878;824]); ([110;103;115;105;109;59],[8821]); ([110;103;116;59],[8815])];
  [([110;103;116;114;59],[8815]); ([110;104;65;114;114;59],[8654]); ([110;104;97;114;114;59],[8622]); ([110;104;112;97;114;59],[10994]); ([110;105;59],[8715]); ([110;105;115;59],[8956]); ([110;105;115;100;59],[8954]); ([110;105;118;59],[8715]); ([110;106;99;121;59],[1114]); ([110;108;65;114;114;59],[8653]); ([110;108;69;59],[8806;824]); ([110;108;97;114;114;59],[8602]); ([110;108;100;114;59],[8229]); ([110;108;101;59],[8816]); ([110;108;101;102;116;97;114;114;111;119;59],[8602]); ([110;108;101;102;116;114;105;103;104;116;97;114;114;111;119;59],[8622]); ([110;108;101;113;59],[8816]); ([110;108;101;113;113;59],[8806;824]); ([110;108;101;113;115;108;97;110;116;59],[10877;824]); ([110;108;101;115;59],[10877;824])];
  [([110;108;101;115;115;59],[8814]); ([110;108;115;105;109;59],[8820]); ([110;108;116;59],[8814]); ([110;108;116;114;105;59],[8938]); ([110;108;116;114;105;101;59],[8940]); ([110;109;105;100;59],[8740]); ([110;111;112;102;59],[120159]); ([110;111;116],[172]); ([110;111;116;59],[172]); ([110;111;116;105;110;59],[8713]); ([110;111;116;105;110;69;59],[8953;824]); ([110;111;116;105;110;100;111;116;59],[8949;824]); ([110;111;116;105;110;118;97;59],[8713]); ([110;111;116;105;110;118;98;59],[8951]); ([110;111;116;105;110;118;99;59],[8950]); ([110;111;116;110;105;59],[8716]); ([110;111;116;110;105;118;97;59],[8716]); ([110;111;116;110;105;118;98;59],[8958]); ([110;111;116;110;105;118;99;59],[8957]); ([110;112;97;114;59],[8742])];
  [([110;112;97;114;97;108;108;101;108;59],[8742]); ([110;112;97;114;115;108;59],[11005;8421]); ([110;112;97;114;116;59],[8706;824]); ([110;112;111;108;105;110;116;59],[10772]); ([110;112;114;59],[8832]); ([110;112;114;99;117;101;59],[8928]); ([110;112;114;101;59],[10927;824]); ([110;112;114;101;99;59],[8832]); ([110;112;114;101;99;101;113;59],[10927;824]); ([110;114;65;114;114;59],[8655]); ([110;114;97;114;114;59],[8603]); ([110;114;97;114;114;99;59],[10547;824]); ([110;114;97;114;114;119;59],[8605;824]); ([110;114;105;103;104;116;97;114;114;111;119;59],[8603]); ([110;114;116;114;105;59],[8939]); ([110;114;116;114;105;101;59],[8941]); ([110;115;99;59],[8833]); ([110;115;99;99;117;101;59],[8929]); ([110;115;99;101;59],[10928;824]); ([110;115;99;114;59],[120003])];
  [([110;115;104;111;114;116;109;105;100;59],[8740]); ([110;115;104;111;114;116;112;97;114;97;108;108;101;108;59],[8742]); ([110;115;105;109;59],[8769]); ([110;115;105;109;101;59],[8772]); ([110;115;105;109;101;113;59],[8772]); ([110;115;109;105;100;59],[8740]); ([110;115;112;97;114;59],[8742]); ([110;115;113;115;117;98;101;59],[8930]); ([110;115;113;115;117;112;101;59],[8931]); ([110;115;117;98;59],[8836]); ([110;115;117;98;69;59],[10949;824]); ([110;115;117;98;101;59],[8840]); ([110;115;117;98;115;101;116;59],[8834;8402]); ([110;115;117;98;115;101;116;101;113;59],[8840]); ([110;115;117;98;115;101;116;101;113;113;59],[10949;824]); ([110;115;117;99;99;59],[8833]); ([110;115;117;99;99;101;113;59],[10928;824]); ([110;115;117;112;59],[8837]); ([110;115;117;112;69;59],[10950;824]); ([110;115;117;112;101;59],[8841])];
  [([110;115;117;112;115;101;116;59],[8835;8402]); ([110;115;117;112;115;101;116;101;113;59],[8841]); ([110;115;117;112;115;101;116;101;113;113;59],[10950;824]); ([110;116;103;108;59],[8825]); ([110;116;105;108;100;101],[241]); ([110;116;105;108;100;101;59],[241]); ([110;116;108;103;59],[8824]); ([110;116;114;105;97;110;103;108;101;108;101;102;116;59],[8938]); ([110;116;114;105;97;110;103;108;101;108;101;102;116;101;113;59],[8940]); ([110;116;114;105;97;110;103;108;101;114;105;103;104;116;59],[8939]); ([110;116;114;105;97;110;103;108;101;114;105;103;104;116;101;113;59],[8941]); ([110;117;59],[957]); ([110;117;109;59],[35]); ([110;117;109;101;114;111;59],[8470]); ([110;117;109;115;112;59],[8199]); ([110;118;68;97;115;104;59],[8877]); ([110;118;72;97;114;114;59],[10500]); ([110;118;97;112;59],[8781;8402]); ([110;118;100;97;115;104;59],[8876]); ([110;118;103;101;59],[8805;8402])];
  [([110;118;103;116;59],[62;8402]); ([110;118;105;110;102;105;110;59],[10718]); ([110;118;108;65;114;114;59],[10498]); ([110;118;108;101;59],[8804;8402]); ([110;118;108;116;59],[60;8402]); ([110;118;108;116;114;105;101;59],[8884;8402]); ([110;118;114;65;114;114;59],[10499]); ([110;118;114;116;114;105;101;59],[8885;8402]); ([110;118;115;105;109;59],[8764;8402]); ([110;119;65;114;114;59],[8662]); ([110;119;97;114;104;107;59],[10531]); ([110;119;97;114;114;59],[8598]); ([110;119;97;114;114;111;119;59],[8598]); ([110;119;110;101;97;114;59],[10535]); ([111;83;59],[9416]); ([111;97;99;117;116;101],[243]); ([111;97;99;117;116;101;59],[243]); ([111;97;115;116;59],[8859]); ([111;99;105;114;59],[8858]); ([111;99;105;114;99],[244])];
  [([111;99;105;114;99;59],[244]); ([111;99;121;59],[1086]); ([111;100;97;115;104;59],[8861]); ([111;100;98;108;97;99;59],[337]); ([111;100;105;118;59],[10808]); ([111;100;111;116;59],[8857]); ([111;100;115;111;108;100;59],[10684]); ([111;101;108;105;103;59],[339]); ([111;102;99;105;114;59],[10687]); ([111;102;114;59],[120108]); ([111;103;111;110;59],[731]); ([111;103;114;97;118;101],[242]); ([111;103;114;97;118;101;59],[242]); ([111;103;116;59],[10689]); ([111;104;98;97;114;59],[10677]); ([111;104;109;59],[937]); ([111;105;110;116;59],[8750]); ([111;108;97;114;114;59],[8634]); ([111;108;99;105;114;59],[10686]); ([111;108;99;114;111;115;115;59],[10683])];
  [([111;108;105;110;101;59],[8254]); ([111;108;116;59],[10688]); ([111;109;97;99;114;59],[333]); ([111;109;101;103;97;59],[969]); ([111;109;105;99;114;111;110;59],[959]); ([111;109;105;100;59],[10678]); ([111;109;105;110;117;115;59],[8854]); ([111;111;112;102;59],[120160]); ([111;112;97;114;59],[10679]); ([111;112;101;114;112;59],[10681]); ([111;112;108;117;115;59],[8853]); ([111;114;59],[8744]); ([111;114;97;114;114;59],[8635]); ([111;114;100;59],[10845]); ([111;114;100;101;114;59],[8500]); ([111;114;100;101;114;111;102;59],[8500]); ([111;114;100;102],[170]); ([111;114;100;102;59],[170]); ([111;114;100;109],[186]); ([111;114;100;109;59],[186])];
  [([111;114;105;103;111;102;59],[8886]); ([111;114;111;114;59],[10838]); ([111;114;115;108;111;112;101;59],[10839]); ([111;114;118;59],[10843]); ([111;115;99;114;59],[8500]); ([111;115;108;97;115;104],[248]); ([111;115;108;97;115;104;59],[248]); ([111;115;111;108;59],[8856]); ([111;116;105;108;100;101],[245]); ([111;116;105;108;100;101;59],[245]); ([111;116;105;109;101;115;59],[8855]); ([111;116;105;109;101;115;97;115;59],[10806]); ([111;117;109;108],[246]); ([111;117;109;108;59],[246]); ([111;118;98;97;114;59],[9021]); ([112;97;114;59],[8741]); ([112;97;114;97],[182]); ([112;97;114;97;59],[182]); ([112;97;114;97;108;108;101;108;59],[8741]); ([112;97;114;115;105;109;59],[10995])];
  [([112;97;114;115;108;59],[11005]); ([112;97;114;116;59],[8706]); ([112;99;121;59],[1087]); ([112;101;114;99;110;116;59],[37]); ([112;101;114;105;111;100;59],[46]); ([112;101;114;109;105;108;59],[8240]); ([112;101;114;112;59],[8869]); ([112;101;114;116;101;110;107;59],[8241]); ([112;102;114;59],[120109]); ([112;104;105;59],[966]); ([112;104;105;118;59],[981]); ([112;104;109;109;97;116;59],[8499]); ([112;104;111;110;101;59],[9742]); ([112;105;59],[960]); ([112;105;116;99;104;102;111;114;107;59],[8916]); ([112;105;118;59],[982]); ([112;108;97;110;99;107;59],[8463]); ([112;108;97;110;99;107;104;59],[8462]); ([112;108;97;110;107;118;59],[8463]); ([112;108;117;115;59],[43])];
  [([112;108;117;115;97;99;105;114;59],[10787]); ([112;108;117;115;98;59],[8862]); ([112;108;117;115;99;105;114;59],[10786]); ([112;108;117;115;100;111;59],[8724]); ([112;108;117;115;100;117;59],[10789]); ([112;108;117;115;101;59],[10866]); ([112;108;117;115;109;110],[177]); ([112;108;117;115;109;110;59],[177]); ([112;108;117;115;115;105;109;59],[10790]); ([112;108;117;115;116;119;111;59],[10791]); ([112;109;59],[177]); ([112;111;105;110;116;105;110;116;59],[10773]); ([112;111;112;102;59],[120161]); ([112;111;117;110;100],[163]); ([112;111;117;110;100;59],[163]); ([112;114;59],[8826]); ([112;114;69;59],[10931]); ([112;114;97;112;59],[10935]); ([112;114;99;117;101;59],[8828]); ([112;114;101;59],[10927])];
  [([112;114;101;99;59],[8826]); ([112;114;101;99;97;112;112;114;111;120;59],[10935]); ([112;114;101;99;99;117;114;108;121;101;113;59],[8828]); ([112;114;101;99;101;113;59],[10927]); ([112;114;101;99;110;97;112;112;114;111;120;59],[10937]); ([112;114;101;99;110;101;113;113;59],[10933]); ([112;114;101;99;110;115;105;109;59],[8936]); ([112;114;101;99;115;105;109;59],[8830]); ([112;114;105;109;101;59],[8242]); ([112;114;105;109;101;115;59],[8473]); ([112;114;110;69;59],[10933]); ([112;114;110;97;112;59],[10937]); ([112;114;110;115;105;109;59],[8936]); ([112;114;111;100;59],[8719]); ([112;114;111;102;97;108;97;114;59],[9006]); ([112;114;111;102;108;105;110;101;59],[8978]); ([112;114;111;102;115;117;114;102;59],[8979]); ([112;114;111;112;59],[8733]); ([112;114;111;112;116;111;59],[8733]); ([112;114;115;105;109;59],[8830])];
  [([112;114;117;114;101;108;59],[8880]); ([112;115;99;114;59],[120005]); ([112;115;105;59],[968]); ([112;117;110;99;115;112;59],[8200]); ([113;102;114;59],[120110]); ([113;105;110;116;59],[10764]); ([113;111;112;102;59],[120162]); ([113;112;114;105;109;101;59],[8279]); ([113;115;99;114;59],[120006]); ([113;117;97;116;101;114;110;105;111;110;115;59],[8461]); ([113;117;97;116;105;110;116;59],[10774]); ([113;117;101;115;116;59],[63]); ([113;117;101;115;116;101;113;59],[8799]); ([113;117;111;116],[34]); ([113;117;111;116;59],[34]); ([114;65;97;114;114;59],[8667]); ([114;65;114;114;59],[8658]); ([114;65;116;97;105;108;59],[10524]); ([114;66;97;114;114;59],[10511]); ([114;72;97;114;59],[10596])];
  [([114;97;99;101;59],[8765;817]); ([114;97;99;117;116;101;59],[341]); ([114;97;100;105;99;59],[8730]); ([114;97;101;109;112;116;121;118;59],[10675]); ([114;97;110;103;59],[10217]); ([114;97;110;103;100;59],[10642]); ([114;97;110;103;101;59],[10661]); ([114;97;110;103;108;101;59],[10217]); ([114;97;113;117;111],[187]); ([114;97;113;117;111;59],[187]); ([114;97;114;114;59],[8594]); ([114;97;114;114;97;112;59],[10613]); ([114;97;114;114;98;59],[8677]); ([114;97;114;114;98;102;115;59],[10528]); ([114;97;114;114;99;59],[10547]); ([114;97;114;114;102;115;59],[10526]); ([114;97;114;114;104;107;59],[8618]); ([114;97;114;114;108;112;59],[8620]); ([114;97;114;114;112;108;59],[10565]); ([114;97;114;114;115;105;109;59],[10612])];
  [([114;97;114;114;116;108;59],[8611]); ([114;97;114;114;119;59],[8605]); ([114;97;116;97;105;108;59],[10522]); ([114;97;116;105;111;59],[8758]); ([114;97;116;105;111;110;97;108;115;59],[8474]); ([114;98;97;114;114;59],[10509]); ([114;98;98;114;107;59],[10099]); ([114;98;114;97;99;101;59],[125]); ([114;98;114;97;99;107;59],[93]); ([114;98;114;107;101;59],[10636]); ([114;98;114;107;115;108;100;59],[10638]); ([114;98;114;107;115;108;117;59],[10640]); ([114;99;97;114;111;110;59],[345]); ([114;99;101;100;105;108;59],[343]); ([114;99;101;105;108;59],[8969]); ([114;99;117;98;59],[125]); ([114;99;121;59],[1088]); ([114;100;99;97;59],[10551]); ([114;100;108;100;104;97;114;59],[10601]); ([114;100;113;117;111;59],[8221])];
  [([114;100;113;117;111;114;59],[8221]); ([114;100;115;104;59],[8627]); ([114;101;97;108;59],[8476]); ([114;101;97;108;105;110;101;59],[8475]); ([114;101;97;108;112;97;114;116;59],[8476]); ([114;101;97;108;115;59],[8477]); ([114;101;99;116;59],[9645]); ([114;101;103],[174]); ([114;101;103;59],[174]); ([114;102;105;115;104;116;59],[10621]); ([114;102;108;111;111;114;59],[8971]); ([114;102;114;59],[120111]); ([114;104;97;114;100;59],[8641]); ([114;104;97;114;117;59],[8640]); ([114;104;97;114;117;108;59],[10604]); ([114;104;111;59],[961]); ([114;104;111;118;59],[1009]); ([114;105;103;104;116;97;114;114;111;119;59],[8594]); ([114;105;103;104;116;97;114;114;111;119;116;97;105;108;59],[8611]); ([114;105;103;104;116;104;97;114;112;111;111;110;100;111;119;110;59],[8641])];
  [([114;105;103;104;116;104;97;114;112;111;111;110;117;112;59],[8640]); ([114;105;103;104;116;108;101;102;116;97;114;114;111;119;115;59],[8644]); ([114;105;103;104;116;108;101;102;116;104;97;114;112;111;111;110;115;59],[8652]); ([114;105;103;104;116;114;105;103;104;116;97;114;114;111;119;115;59],[8649]); ([114;105;103;104;116;115;113;117;105;103;97;114;114;111;119;59],[8605]); ([114;105;103;104;116;116;104;114;101;101;116;105;109;101;115;59],[8908]); ([114;105;110;103;59],[730]); ([114;105;115;105;110;103;100;111;116;115;101;113;59],[8787]); ([114;108;97;114;114;59],[8644]); ([114;108;104;97;114;59],[8652]); ([114;108;109;59],[8207]); ([114;109;111;117;115;116;59],[9137]); ([114;109;111;117;115;116;97;99;104;101;59],[9137]); ([114;110;109;105;100;59],[10990]); ([114;111;97;110;103;59],[10221]); ([114;111;97;114;114;59],[8702]); ([114;111;98;114;107;59],[10215]); ([114;111;112;97;114;59],[10630]); ([114;111;112;102;59],[120163]); ([114;111;112;108;117;115;59],[10798])];
  [([114;111;116;105;109;101;115;59],[10805]); ([114;112;97;114;59],[41]); ([114;112;97;114;103;116;59],[10644]); ([114;112;112;111;108;105;110;116;59],[10770]); ([114;114;97;114;114;59],[8649]); ([114;115;97;113;117;111;59],[8250]); ([114;115;99;114;59],[120007]); ([114;115;104;59],[8625]); ([114;115;113;98;59],[93]); ([114;115;113;117;111;59],[8217]); ([114;115;113;117;111;114;59],[8217]); ([114;116;104;114;101;101;59],[8908]); ([114;116;105;109;101;115;59],[8906]); ([114;116;114;105;59],[9657]); ([114;116;114;105;101;59],[8885]); ([114;116;114;105;102;59],[9656]); ([114;116;114;105;108;116;114;105;59],[10702]); ([114;117;108;117;104;97;114;59],[10600]); ([114;120;59],[8478]); ([115;97;99;117;116;101;59],[347])];
  [([115;98;113;117;111;59],[8218]); ([115;99;59],[8827]); ([115;99;69;59],[10932]); ([115;99;97;112;59],[10936]); ([115;99;97;114;111;110;59],[353]); ([115;99;99;117;101;59],[8829]); ([115;99;101;59],[10928]); ([115;99;101;100;105;108;59],[351]); ([115;99;105;114;99;59],[349]); ([115;99;110;69;59],[10934]); ([115;99;110;97;112;59],[10938]); ([115;99;110;115;105;109;59],[8937]); ([115;99;112;111;108;105;110;116;59],[10771]); ([115;99;115;105;109;59],[8831]); ([115;99;121;59],[1089]); ([115;100;111;116;59],[8901]); ([115;100;111;116;98;59],[8865]); ([115;100;111;116;101;59],[10854]); ([115;101;65;114;114;59],[8664]); ([115;101;97;114;104;107;59],[10533])];
  [([115;101;97;114;114;59],[8600]); ([115;101;97;114;114;111;119;59],[8600]); ([115;101;99;116],[167]); ([115;101;99;116;59],[167]); ([115;101;109;105;59],[59]); ([115;101;115;119;97;114;59],[10537]); ([115;101;116;109;105;110;117;115;59],[8726]); ([115;101;116;109;110;59],[8726]); ([115;101;120;116;59],[10038]); ([115;102;114;59],[120112]); ([115;102;114;111;119;110;59],[8994]); ([115;104;97;114;112;59],[9839]); ([115;104;99;104;99;121;59],[1097]); ([115;104;99;121;59],[1096]); ([115;104;111;114;116;109;105;100;59],[8739]); ([115;104;111;114;116;112;97;114;97;108;108;101;108;59],[8741]); ([115;104;121],[173]); ([115;104;121;59],[173]); ([115;105;103;109;97;59],[963]); ([115;105;103;109;97;102;59],[962])];
  [([115;105;103;109;97;118;59],[962]); ([115;105;109;59],[8764]); ([115;105;109;100;111;116;59],[10858]); ([115;105;109;101;59],[8771]); ([115;105;109;101;113;59],[8771]); ([115;105;109;103;59],[10910]); ([115;105;109;103;69;59],[10912]); ([115;105;109;108;59],[10909]); ([115;105;109;108;69;59],[10911]); ([115;105;109;110;101;59],[8774]); ([115;105;109;112;108;117;115;59],[10788]); ([115;105;109;114;97;114;114;59],[10610]); ([115;108;97;114;114;59],[8592]); ([115;109;97;108;108;115;101;116;109;105;110;117;115;59],[8726]); ([115;109;97;115;104;112;59],[10803]); ([115;109;101;112;97;114;115;108;59],[10724]); ([115;109;105;100;59],[8739]); ([115;109;105;108;101;59],[8995]); ([115;109;116;59],[10922]); ([115;109;116;101;59],[10924])];
  [([115;109;116;101;115;59],[10924;65024]); ([115;111;102;116;99;121;59],[1100]); ([115;111;108;59],[47]); ([115;111;108;98;59],[10692]); ([115;111;108;98;97;114;59],[9023]); ([115;111;112;102;59],[120164]); ([115;112;97;100;101;115;59],[9824]); ([115;112;97;100;101;115;117;105;116;59],[9824]); ([115;112;97;114;59],[8741]); ([115;113;99;97;112;59],[8851]); ([115;113;99;97;112;115;59],[8851;65024]); ([115;113;99;117;112;59],[8852]); ([115;113;99;117;112;115;59],[8852;65024]); ([115;113;115;117;98;59],[8847]); ([115;113;115;117;98;101;59],[8849]); ([115;113;115;117;98;115;101;116;59],[8847]); ([115;113;115;117;98;115;101;116;101;113;59],[8849]); ([115;113;115;117;112;59],[8848]); ([115;113;115;117;112;101;59],[8850]); ([115;113;115;117;112;115;101;116;59],[8848])];
  [([115;113;115;117;112;115;101;116;101;113;59],[8850]); ([115;113;117;59],[9633]); ([115;113;117;97;114;101;59],[9633]); ([115;113;117;97;114;102;59],[9642]); ([115;113;117;102;59],[9642]); ([115;114;97;114;114;59],[8594]); ([115;115;99;114;59],[120008]); ([115;115;101;116;109;110;59],[8726]); ([115;115;109;105;108;101;59],[8995]); ([115;115;116;97;114;102;59],[8902]); ([115;116;97;114;59],[9734]); ([115;116;97;114;102;59],[9733]); ([115;116;114;97;105;103;104;116;101;112;115;105;108;111;110;59],[1013]); ([115;116;114;97;105;103;104;116;112;104;105;59],[981]); ([115;116;114;110;115;59],[175]); ([115;117;98;59],[8834]); ([115;117;98;69;59],[10949]); ([115;117;98;100;111;116;59],[10941]); ([115;117;98;101;59],[8838]); ([115;117;98;101;100;111;116;59],[10947])];
  [([115;117;98;109;117;108;116;59],[10945]); ([115;117;98;110;69;59],[10955]); ([115;117;98;110;101;59],[8842]); ([115;117;98;112;108;117;115;59],[10943]); ([115;117;98;114;97;114;114;59],[10617]); ([115;117;98;115;101;116;59],[8834]); ([115;117;98;115;101;116;101;113;59],[8838]); ([115;117;98;115;101;116;101;113;113;59],[10949]); ([115;117;98;115;101;116;110;101;113;59],[8842]); ([115;117;98;115;101;116;110;101;113;113;59],[10955]); ([115;117;98;115;105;109;59],[10951]); ([115;117;98;115;117;98;59],[10965]); ([115;117;98;115;117;112;59],[10963]); ([115;117;99;99;59],[8827]); ([115;117;99;99;97;112;112;114;111;120;59],[10936]); ([115;117;99;99;99;117;114;108;121;101;113;59],[8829]); ([115;117;99;99;101;113;59],[10928]); ([115;117;99;99;110;97;112;112;114;111;120;59],[10938]); ([115;117;99;99;110;101;113;113;59],[10934]); ([115;117;99;99;110;115;105;109;59],[8937])];
  [([115;117;99;99;115;105;109;59],[8831]); ([115;117;109;59],[8721]); ([115;117;110;103;59],[9834]); ([115;117;112;49],[185]); ([115;117;112;49;59],[185]); ([115;117;112;50],[178]); ([115;117;112;50;59],[178]); ([115;117;112;51],[179]); ([115;117;112;51;59],[179]); ([115;117;112;59],[8835]); ([115;117;112;69;59],[10950]); ([115;117;112;100;111;116;59],[10942]); ([115;117;112;100;115;117;98;59],[10968]); ([115;117;112;101;59],[8839]); ([115;117;112;101;100;111;116;59],[10948]); ([115;117;112;104;115;111;108;59],[10185]); ([115;117;112;104;115;117;98;59],[10967]); ([115;117;112;108;97;114;114;59],[10619]); ([115;117;112;109;117;108;116;59],[10946]); ([115;117;112;110;69;59],[10956])];
  [([115;117;112;110;101;59],[8843]); ([115;117;112;112;108;117;115;59],[10944]); ([115;117;112;115;101;116;59],[8835]); ([115;117;112;115;101;116;101;113;59],[8839]); ([115;117;112;115;101;116;101;113;113;59],[10950]); ([115;117;112;115;101;116;110;101;113;59],[8843]); ([115;117;112;115;101;116;110;101;113;113;59],[10956]); ([115;117;112;115;105;109;59],[10952]); ([115;117;112;115;117;98;59],[10964]); ([115;117;112;115;117;112;59],[10966]); ([115;119;65;114;114;59],[8665]); ([115;119;97;114;104;107;59],[10534]); ([115;119;97;114;114;59],[8601]); ([115;119;97;114;114;111;119;59],[8601]); ([115;119;110;119;97;114;59],[10538]); ([115;122;108;105;103],[223]); ([115;122;108;105;103;59],[223]); ([116;97;114;103;101;116;59],[8982]); ([116;97;117;59],[964]); ([116;98;114;107;59],[9140])];
  [([116;99;97;114;111;110;59],[357]); ([116;99;101;100;105;108;59],[355]); ([116;99;121;59],[1090]); ([116;100;111;116;59],[8411]); ([116;101;108;114;101;99;59],[8981]); ([116;102;114;59],[120113]); ([116;104;101;114;101;52;59],[8756]); ([116;104;101;114;101;102;111;114;101;59],[8756]); ([116;104;101;116;97;59],[952]); ([116;104;101;116;97;115;121;109;59],[977]); ([116;104;101;116;97;118;59],[977]); ([116;104;105;99;107;97;112;112;114;111;120;59],[8776]); ([116;104;105;99;107;115;105;109;59],[8764]); ([116;104;105;110;115;112;59],[8201]); ([116;104;107;97;112;59],[8776]); ([116;104;107;115;105;109;59],[8764]); ([116;104;111;114;110],[254]); ([116;104;111;114;110;59],[254]); ([116;105;108;100;101;59],[732]); ([116;105;109;101;115],[215])];
  [([116;105;109;101;115;59],[215]); ([116;105;109;101;115;98;59],[8864]); ([116;105;109;101;115;98;97;114;59],[10801]); ([116;105;109;101;115;100;59],[10800]); ([116;105;110;116;59],[8749]); ([116;111;101;97;59],[10536]); ([116;111;112;59],[8868]); ([116;111;112;98;111;116;59],[9014]); ([116;111;112;99;105;114;59],[10993]); ([116;111;112;102;59],[120165]); ([116;111;112;102;111;114;107;59],[10970]); ([116;111;115;97;59],[10537]); ([116;112;114;105;109;101;59],[8244]); ([116;114;97;100;101;59],[8482]); ([116;114;105;97;110;103;108;101;59],[9653]); ([116;114;105;97;110;103;108;101;100;111;119;110;59],[9663]); ([116;114;105;97;110;103;108;101;108;101;102;116;59],[9667]); ([116;114;105;97;110;103;108;101;108;101;102;116;101;113;59],[8884]); ([116;114;105;97;110;103;108;101;113;59],[8796]); ([116;114;105;97;110;103;108;101;114;105;103;104;116;59],[9657])];
  [([116;114;105;97;110;103;108;101;114;105;103;104;116;101;113;59],[8885]); ([116;114;105;100;111;116;59],[9708]); ([116;114;105;101;59],[8796]); ([116;114;105;109;105;110;117;115;59],[10810]); ([116;114;105;112;108;117;115;59],[10809]); ([116;114;105;115;98;59],[10701]); ([116;114;105;116;105;109;101;59],[10811]); ([116;114;112;101;122;105;117;109;59],[9186]); ([116;115;99;114;59],[120009]); ([116;115;99;121;59],[1094]); ([116;115;104;99;121;59],[1115]); ([116;115;116;114;111;107;59],[359]); ([116;119;105;120;116;59],[8812]); ([116;119;111;104;101;97;100;108;101;102;116;97;114;114;111;119;59],[8606]); ([116;119;111;104;101;97;100;114;105;103;104;116;97;114;114;111;119;59],[8608]); ([117;65;114;114;59],[8657]); ([117;72;97;114;59],[10595]); ([117;97;99;117;116;101],[250]); ([117;97;99;117;116;101;59],[250]); ([117;97;114;114;59],[8593])];
  [([117;98;114;99;121;59],[1118]); ([117;98;114;101;118;101;59],[365]); ([117;99;105;114;99],[251]); ([117;99;105;114;99;59],[251]); ([117;99;121;59],[1091]); ([117;100;97;114;114;59],[8645]); ([117;100;98;108;97;99;59],[369]); ([117;100;104;97;114;59],[10606]); ([117;102;105;115;104;116;59],[10622]); ([117;102;114;59],[120114]); ([117;103;114;97;118;101],[249]); ([117;103;114;97;118;101;59],[249]); ([117;104;97;114;108;59],[8639]); ([117;104;97;114;114;59],[8638]); ([117;104;98;108;107;59],[9600]); ([117;108;99;111;114;110;59],[8988]); ([117;108;99;111;114;110;101;114;59],[8988]); ([117;108;99;114;111;112;59],[8975]); ([117;108;116;114;105;59],[9720]); ([117;109;97;99;114;59],[363])];
  [([117;109;108],[168]); ([117;109;108;59],[168]); ([117;111;103;111;110;59],[371]); ([117;111;112;102;59],[120166]); ([117;112;97;114;114;111;119;59],[8593]); ([117;112;100;111;119;110;97;114;114;111;119;59],[8597]); ([117;112;104;97;114;112;111;111;110;108;101;102;116;59],[8639]); ([117;112;104;97;114;112;111;111;110;114;105;103;104;116;59],[8638]); ([117;112;108;117;115;59],[8846]); ([117;112;115;105;59],[965]); ([117;112;115;105;104;59],[978]); ([117;112;115;105;108;111;110;59],[965]); ([117;112;117;112;97;114;114;111;119;115;59],[8648]); ([117;114;99;111;114;110;59],[8989]); ([117;114;99;111;114;110;101;114;59],[8989]); ([117;114;99;114;111;112;59],[8974]); ([117;114;105;110;103;59],[367]); ([117;114;116;114;105;59],[9721]); ([117;115;99;114;59],[120010]); ([117;116;100;111;116;59],[8944])];
  [([117;116;105;108;100;101;59],[361]); ([117;116;114;105;59],[9653]); ([117;116;114;105;102;59],[9652]); ([117;117;97;114;114;59],[8648]); ([117;117;109;108],[252]); ([117;117;109;108;59],[252]); ([117;119;97;110;103;108;101;59],[10663]); ([118;65;114;114;59],[8661]); ([118;66;97;114;59],[10984]); ([118;66;97;114;118;59],[10985]); ([118;68;97;115;104;59],[8872]); ([118;97;110;103;114;116;59],[10652]); ([118;97;114;101;112;115;105;108;111;110;59],[1013]); ([118;97;114;107;97;112;112;97;59],[1008]); ([118;97;114;110;111;116;104;105;110;103;59],[8709]); ([118;97;114;112;104;105;59],[981]); ([118;97;114;112;105;59],[982]); ([118;97;114;112;114;111;112;116;111;59],[8733]); ([118;97;114;114;59],[8597]); ([118;97;114;114;104;111;59],[1009])];
  [([118;97;114;115;105;103;109;97;59],[962]); ([118;97;114;115;117;98;115;101;116;110;101;113;59],[8842;65024]); ([118;97;114;115;117;98;115;101;116;110;101;113;113;59],[10955;65024]); ([118;97;114;115;117;112;115;101;116;110;101;113;59],[8843;65024]); ([118;97;114;115;117;112;115;101;116;110;101;113;113;59],[10956;65024]); ([118;97;114;116;104;101;116;97;59],[977]); ([118;97;114;116;114;105;97;110;103;108;101;108;101;102;116;59],[8882]); ([118;97;114;116;114;105;97;110;103;108;101;114;105;103;104;116;59],[8883]); ([118;99;121;59],[1074]); ([118;100;97;115;104;59],[8866]); ([118;101;101;59],[8744]); ([118;101;101;98;97;114;59],[8891]); ([118;101;101;101;113;59],[8794]); ([118;101;108;108;105;112;59],[8942]); ([118;101;114;98;97;114;59],[124]); ([118;101;114;116;59],[124]); ([118;102;114;59],[120115]); ([118;108;116;114;105;59],[8882]); ([118;110;115;117;98;59],[8834;8402]); ([118;110;115;117;112;59],[8835;8402])];
  [([118;111;112;102;59],[120167]); ([118;112;114;111;112;59],[8733]); ([118;114;116;114;105;59],[8883]); ([118;115;99;114;59],[120011]); ([118;115;117;98;110;69;59],[10955;65024]); ([118;115;117;98;110;101;59],[8842;65024]); ([118;115;117;112;110;69;59],[10956;65024]); ([118;115;117;112;110;101;59],[8843;65024]); ([118;122;105;103;122;97;103;59],[10650]); ([119;99;105;114;99;59],[373]); ([119;101;100;98;97;114;59],[10847]); ([119;101;100;103;101;59],[8743]); ([119;101;100;103;101;113;59],[8793]); ([119;101;105;101;114;112;59],[8472]); ([119;102;114;59],[120116]); ([119;111;112;102;59],[120168]); ([119;112;59],[8472]); ([119;114;59],[8768]); ([119;114;101;97;116;104;59],[8768]); ([119;115;99;114;59],[120012])];
  [([120;99;97;112;59],[8898]); ([120;99;105;114;99;59],[9711]); ([120;99;117;112;59],[8899]); ([120;100;116;114;105;59],[9661]); ([120;102;114;59],[120117]); ([120;104;65;114;114;59],[10234]); ([120;104;97;114;114;59],[10231]); ([120;105;59],[958]); ([120;108;65;114;114;59],[10232]); ([120;108;97;114;114;59],[10229]); ([120;109;97;112;59],[10236]); ([120;110;105;115;59],[8955]); ([120;111;100;111;116;59],[10752]); ([120;111;112;102;59],[120169]); ([120;111;112;108;117;115;59],[10753]); ([120;111;116;105;109;101;59],[10754]); ([120;114;65;114;114;59],[10233]); ([120;114;97;114;114;59],[10230]); ([120;115;99;114;59],[120013]); ([120;115;113;99;117;112;59],[10758])];
  [([120;117;112;108;117;115;59],[10756]); ([120;117;116;114;105;59],[9651]); ([120;118;101;101;59],[8897]); ([120;119;101;100;103;101;59],[8896]); ([121;97;99;117;116;101],[253]); ([121;97;99;117;116;101;59],[253]); ([121;97;99;121;59],[1103]); ([121;99;105;114;99;59],[375]); ([121;99;121;59],[1099]); ([121;101;110],[165]); ([121;101;110;59],[165]); ([121;102;114;59],[120118]); ([121;105;99;121;59],[1111]); ([121;111;112;102;59],[120170]); ([121;115;99;114;59],[120014]); ([121;117;99;121;59],[1102]); ([121;117;109;108],[255]); ([121;117;109;108;59],[255]); ([122;97;99;117;116;101;59],[378]); ([122;99;97;114;111;110;59],[382])];
  [([122;99;121;59],[1079]); ([122;100;111;116;59],[380]); ([122;101;101;116;114;102;59],[8488]); ([122;101;116;97;59],[950]); ([122;102;114;59],[120119]); ([122;104;99;121;59],[1078]); ([122;105;103;114;97;114;114;59],[8669]); ([122;111;112;102;59],[120171]); ([122;115;99;114;59],[120015]); ([122;119;106;59],[8205]); ([122;119;110;106;59],[8204])]
].
