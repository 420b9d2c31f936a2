(** Generated by tools/gen_text.py: the text of /repo/assets/PhoneNumberMetadata.xml,
    part F of F, cut after every territory. *)
From Verif Require Import Base.
Local Open Scope bstr_scope.

Definition text_f : list (list bstr) :=
 [["

    <!-- Senegal (SN) -->
    <!-- http://www.itu.int/oth/T02020000B8/en -->
    <!-- http://www.artpsenegal.net/index.php?option=com_content&view=article&id=50 -->
    <territory id=""SN"" countryCode=""221"" internationalPrefix=""00"">
      <availableFormats>
        <numberFormat pattern=""(\d{3})(\d{2})(\d{2})(\d{2})"">
          <leadingDigits>8</leadingDigits>
          <format>$1 $2 $3 $4</format>
        </numberFormat>
        <!-- Using yellow pages and online telecom company formatting, rather than that implied in
             the national numbering plan. -->
        <numberFormat pattern=""(\d{2})(\d{3})(\d{2})(\d{2})"">
          <leadingDigits>[379]</leadingDigits>
          <format>$1 $2 $3 $4</format>
        </numberFormat>
      </availableFormats>
      <generalDesc>
        <nationalNumberPattern>
          (?:
            [378]\d|
            93
          )\d{7}
        </nationalNumberPattern>
      </generalDesc>
      <fixedLine>
        <possibleLengths national=""9""/>
        <exampleNumber>301012345</exampleNumber>
        <nationalNumberPattern>
          3(?:
            0(?:
              1[0-2]|
              80
            )|
            282|
            3(?:
              8[1-9]|
              9[3-9]
            )|
            611
          )\d{5}
        </nationalNumberPattern>
      </fixedLine>
      <mobile>
        <possibleLengths national=""9""/>
        <exampleNumber>701234567</exampleNumber>
        <nationalNumberPattern>
          7(?:
            [015-8]\d|
            21|
            90
          )\d{6}
        </nationalNumberPattern>
      </mobile>
      <tollFree>
        <possibleLengths national=""9""/>
        <exampleNumber>800123456</exampleNumber>
        <nationalNumberPattern>800\d{6}</nationalNumberPattern>
      </tollFree>
      <!-- Revenu Partagé in the plan. -->
      <premiumRate>
        <possibleLengths national=""9""/>
        <exampleNumber>884123456</exampleNumber>
        <nationalNumberPattern>88[4689]\d{6}</nationalNumberPattern>
";
   "      </premiumRate>
      <sharedCost>
        <possibleLengths national=""9""/>
        <exampleNumber>810123456</exampleNumber>
        <nationalNumberPattern>81[02468]\d{6}</nationalNumberPattern>
      </sharedCost>
      <!-- Also covers satellite telephony ranges. -->
      <voip>
        <possibleLengths national=""9""/>
        <exampleNumber>933301234</exampleNumber>
        <nationalNumberPattern>
          (?:
            3(?:
              392|
              9[01]\d
            )\d|
            93(?:
              3[13]0|
              929
            )
          )\d{4}
        </nationalNumberPattern>
      </voip>
    </territory>"];
  ["

    <!-- Somalia (SO) -->
    <!-- This document seems to cover only a small se";
   "t of prefixes in Somalia. Somalia has limited
         information available, and the numerous telecom carriers were previously working under an
         unregulated environment. The extra prefixes were added fr";
   "om the contact phone numbers of
         the countries main telecom operators. We also have received information that a national
         prefix of ""0"" is required when dialling fr";
   "om different regions (e.g. Puntland, Somaliland)
         for some operators, so that is included here although we do not use it when formatting. -->
    <!-- http://www.itu.int/oth/T02020000C0/en -->
    <!-- http://en.wikipedia.org/wiki/+252 -->
    <territory id=""SO"" countryCode=""252"" internationalPrefix=""00"" nationalPrefix=""0"">
      <availableFormats>
        <numberFormat pattern=""(\d{2})(\d{4})"">
          <leadingDigits>8[125]</leadingDigits>
          <format>$1 $2</format>
        </numberFormat>
        <numberFormat pattern=""(\d{6})"">
          <leadingDigits>[134]</leadingDigits>
          <format>$1</format>
        </numberFormat>
        <!-- These follow formats online,  such as http://www.hortel.net/contact_us.html -->
        <numberFormat pattern=""(\d)(\d{6})"">
          <leadingDigits>
            [15]|
            2[0-79]|
            3[0-46-8]|
            4[0-7]
          </leadingDigits>
          <format>$1 $2</format>
        </numberFormat>
        <numberFormat pattern=""(\d{2})(\d{5,7})"">
          <leadingDigits>
            1|
            28|
            9[2-9]
          </leadingDigits>
          <format>$1 $2</format>
        </numberFormat>
        <numberFormat pattern=""(\d)(\d{7})"">
          <leadingDigits>
            [267]|
            904
          </leadingDigits>
          <format>$1 $2</format>
        </numberFormat>
        <numberFormat pattern=""(\d{2})(\d{3})(\d{4})"">
          <leadingDigits>[346-9]</leadingDigits>
          <format>$1 $2 $3</format>
        </numberFormat>
";
   "      </availableFormats>
      <generalDesc>
        <nationalNumberPattern>
          [346-9]\d{8}|
          [12679]\d{7}|
          [1-5]\d{6}|
          [1348]\d{5}
        </nationalNumberPattern>
      </generalDesc>
      <!-- Apparently Telesom and Nationlink (Somaliland) both use the prefix 2. We exclude 28
           here since that is apparently used for mobile. As per ITU doc 6 digit mobile numbers
           are possible for 1, 3, 4, 81, 82 and 85 prefixes. -->
      <fixedLine>
        <possibleLengths national=""6,7""/>
        <exampleNumber>4012345</exampleNumber>
        <nationalNumberPattern>
          (?:
            1\d|
            2[0-79]|
            3[0-46-8]|
            4[0-7]|
            5[57-9]
          )\d{5}|
          (?:
            [134]\d|
            8[125]
          )\d{4}
        </nationalNumberPattern>
      </fixedLine>
      <!-- 24 is used by the carrier Telesom. 28 is used by Nationlink. 6[89] are apparently used
           by Nationlink Somalia, 67 by Nationlink Puntland, and 61 by Hormuud. 7X is used by
           Somtel. 6 followed by only 7 digits is used by Telecom. Note that in June 2014 many
           ranges were suspended by the government. 90\d{6} was listed as one of the ranges to be
           suspended, but open-source contributors confirm that 90[67]\d{6} is still in use, even
           if the shorter 90 ranges are no longer. -->
      <mobile>
        <possibleLengths national=""[7-9]""/>
        <exampleNumber>71123456</exampleNumber>
        <nationalNumberPattern>
          (?:
            (?:
              15|
              (?:
                3[59]|
                4[89]|
                6\d|
                7[0-35-9]|
                8[08]
              )\d|
              9(?:
                0\d|
                [2-9]
              )
            )\d|
            2(?:
              4\d|
              8
            )
          )\d{5}|
          (?:
            [67]\d\d|
            904
          )\d{5}
";
   "        </nationalNumberPattern>
      </mobile>
    </territory>"];
  ["

    <!-- Suriname (SR) -->
    <!-- http://www.itu.int/oth/T02020000C5/en -->
    <territory id=""SR"" countryCode=""597"" internationalPrefix=""00"">
      <availableFormats>
        <numberFormat pattern=""(\d{2})(\d{2})(\d{2})"">
          <leadingDigits>56</leadingDigits>
          <format>$1-$2-$3</format>
        </numberFormat>
        <!-- Following conventions used in the Suriname Yellow Pages. -->
        <numberFormat pattern=""(\d{3})(\d{3})"">
          <leadingDigits>[2-5]</leadingDigits>
          <format>$1-$2</format>
        </numberFormat>
        <numberFormat pattern=""(\d{3})(\d{4})"">
          <leadingDigits>[6-9]</leadingDigits>
          <format>$1-$2</format>
        </numberFormat>
      </availableFormats>
      <generalDesc>
        <nationalNumberPattern>
          (?:
            [2-5]|
            [6-9]\d
          )\d{5}
        </nationalNumberPattern>
      </generalDesc>
      <!-- Includes non-geographic WLL-CDMA Fixed Lines. -->
      <fixedLine>
        <possibleLengths national=""6""/>
        <exampleNumber>211234</exampleNumber>
        <nationalNumberPattern>
          (?:
            2[1-3]|
            3[0-7]|
            4\d|
            5[2-578]
          )\d{4}
        </nationalNumberPattern>
      </fixedLine>
      <mobile>
        <possibleLengths national=""7""/>
        <exampleNumber>7412345</exampleNumber>
        <nationalNumberPattern>
          (?:
            6[08]|
            7[124-7]|
            8[1-9]
          )\d{5}
        </nationalNumberPattern>
      </mobile>
      <tollFree>
        <possibleLengths national=""7""/>
        <exampleNumber>8012345</exampleNumber>
        <nationalNumberPattern>80\d{5}</nationalNumberPattern>
      </tollFree>
      <premiumRate>
        <possibleLengths national=""7""/>
        <exampleNumber>9012345</exampleNumber>
        <nationalNumberPattern>90\d{5}</nationalNumberPattern>
      </premiumRate>
      <voip>
        <possibleLengths national=""6,7""/>
        <exampleNumber>561234</exampleNumber>
";
   "        <nationalNumberPattern>
          (?:
            56|
            91\d
          )\d{4}
        </nationalNumberPattern>
      </voip>
    </territory>"];
  ["

    <!-- South Sudan (SS) -->
    <!-- http://www.itu.int/oth/T02020000F9/en -->
    <!-- http://en.wikipedia.org/wiki/+211 -->
    <territory id=""SS"" countryCode=""211"" internationalPrefix=""00"" nationalPrefix=""0"">
      <availableFormats>
        <numberFormat pattern=""(\d{3})(\d{3})(\d{3})"" nationalPrefixFormattingRule=""$NP$FG"">
          <leadingDigits>[19]</leadingDigits>
          <format>$1 $2 $3</format>
        </numberFormat>
      </availableFormats>
      <generalDesc>
        <nationalNumberPattern>[19]\d{8}</nationalNumberPattern>
      </generalDesc>
      <fixedLine>
        <possibleLengths national=""9""/>
        <exampleNumber>181234567</exampleNumber>
        <nationalNumberPattern>1[89]\d{7}</nationalNumberPattern>
      </fixedLine>
      <mobile>
        <possibleLengths national=""9""/>
        <exampleNumber>977123456</exampleNumber>
        <nationalNumberPattern>
          (?:
            12|
            9[1257-9]
          )\d{7}
        </nationalNumberPattern>
      </mobile>
    </territory>"];
  ["

    <!-- São Tomé & Príncipe (ST) -->
    <!-- http://www.itu.int/oth/T02020000B6/en -->
    <territory id=""ST"" countryCode=""239"" internationalPrefix=""00"">
      <availableFormats>
        <numberFormat pattern=""(\d{3})(\d{4})"">
          <leadingDigits>[29]</leadingDigits>
          <format>$1 $2</format>
        </numberFormat>
      </availableFormats>
      <generalDesc>
        <nationalNumberPattern>
          (?:
            22|
            9\d
          )\d{5}
        </nationalNumberPattern>
      </generalDesc>
      <fixedLine>
        <possibleLengths national=""7""/>
        <exampleNumber>2221234</exampleNumber>
        <nationalNumberPattern>22\d{5}</nationalNumberPattern>
      </fixedLine>
      <!-- Added prefix 90 per IR21 fr";
   "om the carrier -->
      <mobile>
        <possibleLengths national=""7""/>
        <exampleNumber>9812345</exampleNumber>
        <nationalNumberPattern>
          900[5-9]\d{3}|
          9(?:
            0[1-9]|
            [89]\d
          )\d{4}
        </nationalNumberPattern>
      </mobile>
    </territory>"];
  ["

    <!-- El Salvador (SV) -->
    <!-- http://www.itu.int/oth/T020200003F/en -->
    <!-- http://www.siget.gob.sv/BusquedaPublica.aspx?pagina=3&tipo=27&titulo=t8&sector=2&ordenar=&dir=DESC -->
    <territory id=""SV"" countryCode=""503"" internationalPrefix=""00"">
      <availableFormats>
        <numberFormat pattern=""(\d{3})(\d{4})"">
          <leadingDigits>[89]</leadingDigits>
          <format>$1 $2</format>
        </numberFormat>
        <numberFormat pattern=""(\d{4})(\d{4})"">
          <leadingDigits>[25-7]</leadingDigits>
          <format>$1 $2</format>
        </numberFormat>
        <numberFormat pattern=""(\d{3})(\d{4})(\d{4})"">
          <leadingDigits>[89]</leadingDigits>
          <format>$1 $2 $3</format>
        </numberFormat>
      </availableFormats>
      <generalDesc>
        <nationalNumberPattern>
          [25-7]\d{7}|
          (?:
            80\d|
            900
          )\d{4}(?:
            \d{4}
          )?
        </nationalNumberPattern>
      </generalDesc>
      <!-- Numbers starting with 20, 27, 28 and 29 are reserved but not yet used. -->
      <fixedLine>
        <possibleLengths national=""8""/>
        <exampleNumber>21234567</exampleNumber>
        <nationalNumberPattern>
          2(?:
            79(?:
              0[0347-9]|
              [1-9]\d
            )|
            89(?:
              0[024589]|
              [1-9]\d
            )
          )\d{3}|
          2(?:
            [1-69]\d|
            [78][0-8]
          )\d{5}
        </nationalNumberPattern>
      </fixedLine>
      <mobile>
        <possibleLengths national=""8""/>
        <exampleNumber>70123456</exampleNumber>
        <nationalNumberPattern>[5-7]\d{7}</nationalNumberPattern>
      </mobile>
      <!-- Toll free numbers are either 800 NNNN or 800 NNNN NNNN. -->
      <tollFree>
        <possibleLengths national=""7,11""/>
        <exampleNumber>8001234</exampleNumber>
        <nationalNumberPattern>
          800\d{8}|
          80[01]\d{4}
        </nationalNumberPattern>
";
   "      </tollFree>
      <!-- Premium rate numbers are either 900 NNNN or 900 NNNN NNNN. -->
      <premiumRate>
        <possibleLengths national=""7,11""/>
        <exampleNumber>9001234</exampleNumber>
        <nationalNumberPattern>
          900\d{4}(?:
            \d{4}
          )?
        </nationalNumberPattern>
      </premiumRate>
    </territory>"];
  ["

    <!-- Sint Maarten (SX) -->
    <!-- Calling code and formatting shared with 'US' -->
    <!-- http://www.nanpa.com/pdf/PL_429.pdf -->
    <!-- http://www.itu.int/oth/T02020000F7/en -->
    <territory id=""SX"" countryCode=""1"" leadingDigits=""721"" internationalPrefix=""011""
               nationalPrefix=""1"" nationalPrefixForParsing=""(5\d{6})$|1""
               nationalPrefixTransformRule=""721$1"" mobileNumberPortableRegion=""true"">
      <generalDesc>
        <nationalNumberPattern>
          7215\d{6}|
          (?:
            [58]\d\d|
            900
          )\d{7}
        </nationalNumberPattern>
      </generalDesc>
      <fixedLine>
        <possibleLengths national=""10"" localOnly=""7""/>
        <exampleNumber>7215425678</exampleNumber>
        <nationalNumberPattern>
          7215(?:
            4[2-8]|
            8[39]|
            9[056]
          )\d{4}
        </nationalNumberPattern>
      </fixedLine>
      <!-- We assume we can send SMSs to the Fixed GSM numbers mentioned in the plan and hence
           in";
   "clude these as mobile numbers. -->
      <mobile>
        <possibleLengths national=""10"" localOnly=""7""/>
        <exampleNumber>7215205678</exampleNumber>
        <nationalNumberPattern>
          7215(?:
            1[02]|
            2\d|
            5[034679]|
            8[0-24-8]
          )\d{4}
        </nationalNumberPattern>
      </mobile>
      <tollFree>
        <possibleLengths national=""10""/>
        <exampleNumber>8002123456</exampleNumber>
        <nationalNumberPattern>
          8(?:
            00|
            33|
            44|
            55|
            66|
            77|
            88
          )[2-9]\d{6}
        </nationalNumberPattern>
      </tollFree>
      <premiumRate>
        <possibleLengths national=""10""/>
        <exampleNumber>9002123456</exampleNumber>
        <nationalNumberPattern>900[2-9]\d{6}</nationalNumberPattern>
      </premiumRate>
      <!-- https://www.nationalnanpa.com/number_resource_info/5XX_codes.html -->
";
   "      <personalNumber>
        <possibleLengths national=""10""/>
        <exampleNumber>5002345678</exampleNumber>
        <nationalNumberPattern>
          52(?:
            3(?:
              [2-46-9][02-9]\d|
              5(?:
                [02-46-9]\d|
                5[0-46-9]
              )
            )|
            4(?:
              [2-478][02-9]\d|
              5(?:
                [034]\d|
                2[024-9]|
                5[0-46-9]
              )|
              6(?:
                0[1-9]|
                [2-9]\d
              )|
              9(?:
                [05-9]\d|
                2[0-5]|
                49
              )
            )
          )\d{4}|
          52[34][2-9]1[02-9]\d{4}|
          5(?:
            00|
            2[125-9]|
            3[23]|
            44|
            66|
            77|
            88
          )[2-9]\d{6}
        </nationalNumberPattern>
      </personalNumber>
    </territory>"];
  ["

    <!-- Syria (SY) -->
    <!-- No tollFree or premiumRate information can be found. -->
    <!-- http://www.itu.int/oth/T02020000C9/en -->
    <!-- http://en.wikipedia.org/wiki/%2B963 -->
    <territory id=""SY"" countryCode=""963"" internationalPrefix=""00"" nationalPrefix=""0"">
      <availableFormats>
        <numberFormat pattern=""(\d{2})(\d{3})(\d{3,4})"" nationalPrefixFormattingRule=""$NP$FG""
                      nationalPrefixOptionalWhenFormatting=""true"">
          <leadingDigits>
            [1-4]|
            5[1-3]
          </leadingDigits>
          <format>$1 $2 $3</format>
        </numberFormat>
        <numberFormat pattern=""(\d{3})(\d{3})(\d{3})"" nationalPrefixFormattingRule=""$NP$FG""
                      nationalPrefixOptionalWhenFormatting=""true"">
          <leadingDigits>[59]</leadingDigits>
          <format>$1 $2 $3</format>
        </numberFormat>
      </availableFormats>
      <generalDesc>
        <nationalNumberPattern>
          [1-359]\d{8}|
          [1-5]\d{7}
        </nationalNumberPattern>
      </generalDesc>
      <!-- Numbers with the 21 prefix are made optionally 1-digit longer based on numbers found on
           the Internet. -->
      <fixedLine>
        <possibleLengths national=""8,9"" localOnly=""6,7""/>
        <exampleNumber>112345678</exampleNumber>
        <nationalNumberPattern>
          21\d{6,7}|
          (?:
            1(?:
              [14]\d|
              [2356]
            )|
            2[235]|
            3(?:
              [13]\d|
              4
            )|
            4[134]|
            5[1-3]
          )\d{6}
        </nationalNumberPattern>
      </fixedLine>
      <!-- Numbers have been found online for the prefixes 922, 95[138], and 96[05]. -->
      <mobile>
        <possibleLengths national=""9""/>
        <exampleNumber>944567890</exampleNumber>
        <nationalNumberPattern>
          (?:
            50|
            9[1-9]
          )\d{7}
        </nationalNumberPattern>
      </mobile>
    </territory>"];
  ["

    <!-- Eswatini (SZ) -->
    <!-- http://www.itu.int/oth/T02020000C6/en -->
    <territory id=""SZ"" countryCode=""268"" internationalPrefix=""00"">
      <availableFormats>
        <numberFormat pattern=""(\d{4})(\d{4})"">
          <leadingDigits>[0237]</leadingDigits>
          <format>$1 $2</format>
        </numberFormat>
        <numberFormat pattern=""(\d{5})(\d{4})"">
          <leadingDigits>9</leadingDigits>
          <format>$1 $2</format>
        </numberFormat>
      </availableFormats>
      <generalDesc>
        <nationalNumberPattern>
          0800\d{4}|
          (?:
            [237]\d|
            900
          )\d{6}
        </nationalNumberPattern>
      </generalDesc>
      <noInternationalDialling>
        <possibleLengths national=""8""/>
        <nationalNumberPattern>0800\d{4}</nationalNumberPattern>
      </noInternationalDialling>
      <fixedLine>
        <possibleLengths national=""8""/>
        <exampleNumber>22171234</exampleNumber>
        <nationalNumberPattern>[23][2-5]\d{6}</nationalNumberPattern>
      </fixedLine>
      <mobile>
        <possibleLengths national=""8""/>
        <exampleNumber>76123456</exampleNumber>
        <nationalNumberPattern>7[5-9]\d{6}</nationalNumberPattern>
      </mobile>
      <tollFree>
        <possibleLengths national=""8""/>
        <exampleNumber>08001234</exampleNumber>
        <nationalNumberPattern>0800\d{4}</nationalNumberPattern>
      </tollFree>
      <premiumRate>
        <possibleLengths national=""9""/>
        <exampleNumber>900012345</exampleNumber>
        <nationalNumberPattern>900\d{6}</nationalNumberPattern>
      </premiumRate>
      <voip>
        <possibleLengths national=""8""/>
        <exampleNumber>70012345</exampleNumber>
        <nationalNumberPattern>70\d{6}</nationalNumberPattern>
      </voip>
    </territory>"];
  ["

    <!-- Tristan da Cunha (TA) -->
    <!-- Calling code and formatting shared with 'SH' -->
    <!-- http://www.itu.int/oth/T02020000AF/en -->
    <territory id=""TA"" countryCode=""290"" leadingDigits=""8"" internationalPrefix=""00"">
      <generalDesc>
        <nationalNumberPattern>8\d{3}</nationalNumberPattern>
      </generalDesc>
      <fixedLine>
        <possibleLengths national=""4""/>
        <exampleNumber>8999</exampleNumber>
        <nationalNumberPattern>8\d{3}</nationalNumberPattern>
      </fixedLine>
    </territory>"];
  ["

    <!-- Turks & Caicos Islands (TC) -->
    <!-- Calling code and formatting shared with 'US' -->
    <!-- http://www.itu.int/oth/T02020000D8/en -->
    <territory id=""TC"" countryCode=""1"" leadingDigits=""649"" internationalPrefix=""011""
               nationalPrefix=""1"" nationalPrefixForParsing=""([2-479]\d{6})$|1""
               nationalPrefixTransformRule=""649$1"" mobileNumberPortableRegion=""true"">
      <generalDesc>
        <nationalNumberPattern>
          (?:
            [58]\d\d|
            649|
            900
          )\d{7}
        </nationalNumberPattern>
      </generalDesc>
      <fixedLine>
        <possibleLengths national=""10"" localOnly=""7""/>
        <exampleNumber>6497121234</exampleNumber>
        <nationalNumberPattern>
          649(?:
            266|
            712|
            9(?:
              4\d|
              50
            )
          )\d{4}
        </nationalNumberPattern>
      </fixedLine>
      <!-- Extra prefixes 246, 247, 346 found online and in the yellow pages. -->
      <mobile>
        <possibleLengths national=""10"" localOnly=""7""/>
        <exampleNumber>6492311234</exampleNumber>
        <nationalNumberPattern>
          649(?:
            2(?:
              3[129]|
              4[1-79]
            )|
            3\d\d|
            4[34][1-3]
          )\d{4}
        </nationalNumberPattern>
      </mobile>
      <tollFree>
        <possibleLengths national=""10""/>
        <exampleNumber>8002345678</exampleNumber>
        <nationalNumberPattern>
          8(?:
            00|
            33|
            44|
            55|
            66|
            77|
            88
          )[2-9]\d{6}
        </nationalNumberPattern>
      </tollFree>
      <premiumRate>
        <possibleLengths national=""10""/>
        <exampleNumber>9002345678</exampleNumber>
        <nationalNumberPattern>900[2-9]\d{6}</nationalNumberPattern>
      </premiumRate>
      <!-- https://www.nationalnanpa.com/number_resource_info/5XX_codes.html -->
      <personalNumber>
";
   "        <possibleLengths national=""10""/>
        <exampleNumber>5002345678</exampleNumber>
        <nationalNumberPattern>
          52(?:
            3(?:
              [2-46-9][02-9]\d|
              5(?:
                [02-46-9]\d|
                5[0-46-9]
              )
            )|
            4(?:
              [2-478][02-9]\d|
              5(?:
                [034]\d|
                2[024-9]|
                5[0-46-9]
              )|
              6(?:
                0[1-9]|
                [2-9]\d
              )|
              9(?:
                [05-9]\d|
                2[0-5]|
                49
              )
            )
          )\d{4}|
          52[34][2-9]1[02-9]\d{4}|
          5(?:
            00|
            2[125-9]|
            3[23]|
            44|
            66|
            77|
            88
          )[2-9]\d{6}
        </nationalNumberPattern>
      </personalNumber>
      <voip>
        <possibleLengths national=""10"" localOnly=""7""/>
        <exampleNumber>6497101234</exampleNumber>
        <nationalNumberPattern>
          649(?:
            71[01]|
            966
          )\d{4}
        </nationalNumberPattern>
      </voip>
    </territory>"];
  ["

    <!-- Chad (TD) -->
    <!-- The international prefix includes 16 as the international manual exchange. -->
    <!-- http://www.itu.int/oth/T0202000029/en -->
    <territory id=""TD"" countryCode=""235"" preferredInternationalPrefix=""00""
               internationalPrefix=""00|16"">
      <availableFormats>
        <numberFormat pattern=""(\d{2})(\d{2})(\d{2})(\d{2})"">
          <leadingDigits>[236-9]</leadingDigits>
          <format>$1 $2 $3 $4</format>
        </numberFormat>
      </availableFormats>
      <generalDesc>
        <nationalNumberPattern>
          (?:
            22|
            [3689]\d|
            77
          )\d{6}
        </nationalNumberPattern>
      </generalDesc>
      <fixedLine>
        <possibleLengths national=""8""/>
        <exampleNumber>22501234</exampleNumber>
        <nationalNumberPattern>
          22(?:
            [37-9]0|
            5[0-5]|
            6[89]
          )\d{4}
        </nationalNumberPattern>
      </fixedLine>
      <!-- Sotel Tchad ""SALAM"" (77 XX XX XX) is classified as a fixed operator in the plan, but it
           also says numbers starting with 7 are mobile numbers. Putting under mobile for now.
           Also adding 6[028] and 63[5-9] which are operated by Airtel. -->
      <!-- Adding entire 9 prefix based on information fr";
   "om carrier. -->
      <mobile>
        <possibleLengths national=""8""/>
        <exampleNumber>63012345</exampleNumber>
        <nationalNumberPattern>
          (?:
            3[01]|
            [69]\d|
            77|
            8[5-7]
          )\d{6}
        </nationalNumberPattern>
      </mobile>
    </territory>"];
  ["

    <!-- Togo (TG) -->
    <!-- http://www.itu.int/oth/T02020000D1/en -->
    <territory id=""TG"" countryCode=""228"" internationalPrefix=""00"">
      <availableFormats>
        <!-- Added leading digits so that the shortcodes do not pick this format during AYTF. -->
        <numberFormat pattern=""(\d{2})(\d{2})(\d{2})(\d{2})"">
          <leadingDigits>[279]</leadingDigits>
          <format>$1 $2 $3 $4</format>
        </numberFormat>
      </availableFormats>
      <generalDesc>
        <nationalNumberPattern>[279]\d{7}</nationalNumberPattern>
      </generalDesc>
      <fixedLine>
        <possibleLengths national=""8""/>
        <exampleNumber>22212345</exampleNumber>
        <nationalNumberPattern>
          2(?:
            2[2-7]|
            3[23]|
            4[45]|
            55|
            6[67]|
            77
          )\d{5}
        </nationalNumberPattern>
      </fixedLine>
      <mobile>
        <possibleLengths national=""8""/>
        <exampleNumber>90112345</exampleNumber>
        <nationalNumberPattern>
          (?:
            7[0-289]|
            9[0-36-9]
          )\d{6}
        </nationalNumberPattern>
      </mobile>
    </territory>"];
  ["

    <!-- Thailand (TH) -->
    <!-- Subscribers can use respective carrier's IDD when calling abroad. We have not configured
         any preferredInternationalPrefix as there is no official evidence for it. -->
    <!-- http://www.itu.int/oth/T02020000CD/en -->
    <!-- http://www.barascientific.com/bscnews/variety/emergency/Tel-4Digi.pdf -->
    <!-- https://en.wikipedia.org/wiki/Telephone_numbers_in_Thailand -->
    <territory id=""TH"" countryCode=""66"" internationalPrefix=""00[1-9]"" nationalPrefix=""0""
               mobileNumberPortableRegion=""true"">
      <availableFormats>
        <!-- Formatting patterns fr";
   "om wikipedia and the document itself -
             http://en.wikipedia.org/wiki/%2B66 -->
        <numberFormat pattern=""(\d)(\d{3})(\d{4})"" nationalPrefixFormattingRule=""$NP$FG"">
          <leadingDigits>2</leadingDigits>
          <format>$1 $2 $3</format>
        </numberFormat>
        <numberFormat pattern=""(\d{2})(\d{3})(\d{3,4})"" nationalPrefixFormattingRule=""$NP$FG"">
          <leadingDigits>[13-9]</leadingDigits>
          <format>$1 $2 $3</format>
        </numberFormat>
        <numberFormat pattern=""(\d{4})(\d{3})(\d{3})"">
          <leadingDigits>1</leadingDigits>
          <format>$1 $2 $3</format>
        </numberFormat>
      </availableFormats>
      <generalDesc>
        <nationalNumberPattern>
          (?:
            001800|
            [2-57]|
            [689]\d
          )\d{7}|
          1\d{7,9}
        </nationalNumberPattern>
      </generalDesc>
      <!-- Numbers online have been found that start with 20, despite the ITU doc not covering
           these. -->
      <fixedLine>
        <possibleLengths national=""8""/>
        <exampleNumber>21234567</exampleNumber>
        <nationalNumberPattern>
          (?:
            1[0689]|
            2\d|
            3[2-9]|
            4[2-5]|
            5[2-6]|
            7[3-7]
          )\d{6}
        </nationalNumberPattern>
      </fixedLine>
      <!-- Numbers found online starting with 62 and 64. 14, 63 and 65 are fr";
   "om an open-source bug
";
   "           report, we couldn't find evidence of these specifically being in use but this article
           http://www.prachachat.net/news_detail.php?newsid=1395732787 talks about prefix 6 and 1
           being cleared for mobile use. -->
      <mobile>
        <possibleLengths national=""9""/>
        <exampleNumber>812345678</exampleNumber>
        <nationalNumberPattern>
          (?:
            (?:
              14|
              [89]\d
            )\d\d|
            6(?:
              [1-6]\d\d|
              7(?:
                1[0-8]|
                2[4-7]|
                3[1-6]
              )
            )
          )\d{5}
        </nationalNumberPattern>
      </mobile>
      <!-- http://en.wikipedia.org/wiki/Toll-free_telephone_number. Prefix 001800 of length
           13-digit is added based on user report. -->
      <tollFree>
        <possibleLengths national=""10,13""/>
        <exampleNumber>1800123456</exampleNumber>
        <nationalNumberPattern>
          (?:
            001800\d|
            1800
          )\d{6}
        </nationalNumberPattern>
      </tollFree>
      <premiumRate>
        <possibleLengths national=""10""/>
        <exampleNumber>1900123456</exampleNumber>
        <nationalNumberPattern>1900\d{6}</nationalNumberPattern>
      </premiumRate>
      <!-- The ITU document says that the 89 prefix is also VOIP but there are lots of numbers
           online to suggest they are actually used as mobile numbers. -->
      <voip>
        <possibleLengths national=""9""/>
        <exampleNumber>601234567</exampleNumber>
        <nationalNumberPattern>6[08]\d{7}</nationalNumberPattern>
      </voip>
    </territory>"];
  ["

    <!-- Tajikistan (TJ) -->
    <!-- No tollFree or premiumRate information can be found. -->
    <!-- http://www.itu.int/oth/T02020000CA/en -->
    <!-- Based on details fr";
   "om vendors and online investigation results, 8 is no more considered
         as national dialling code. Originally added based on Wikipedia. It cannot coexits when
         810 is considered as international exit code and 10 as one of mobile ranges. -->
    <territory id=""TJ"" countryCode=""992"" preferredInternationalPrefix=""8~10""
               internationalPrefix=""810"">
      <availableFormats>
        <numberFormat pattern=""(\d{6})(\d)(\d{2})"">
          <leadingDigits>331</leadingDigits>
          <leadingDigits>3317</leadingDigits>
          <format>$1 $2 $3</format>
        </numberFormat>
        <numberFormat pattern=""(\d{3})(\d{2})(\d{4})"">
          <leadingDigits>
            44[02-479]|
            [34]7
          </leadingDigits>
          <format>$1 $2 $3</format>
        </numberFormat>
        <numberFormat pattern=""(\d{4})(\d)(\d{4})"">
          <leadingDigits>
            3(?:
              [1245]|
              3[12]
            )
          </leadingDigits>
          <format>$1 $2 $3</format>
        </numberFormat>
        <numberFormat pattern=""(\d{2})(\d{3})(\d{4})"">
          <leadingDigits>\d</leadingDigits>
          <format>$1 $2 $3</format>
        </numberFormat>
      </availableFormats>
      <generalDesc>
        <nationalNumberPattern>
          (?:
            [0-57-9]\d|
            66
          )\d{7}
        </nationalNumberPattern>
      </generalDesc>
      <fixedLine>
        <possibleLengths national=""9"" localOnly=""3,[5-7]""/>
        <exampleNumber>372123456</exampleNumber>
        <nationalNumberPattern>
          (?:
            3(?:
              1[3-5]|
              2[245]|
              3[12]|
              4[24-7]|
              5[25]|
              72
            )|
            4(?:
              46|
              74|
              87
            )
";
   "          )\d{6}
        </nationalNumberPattern>
      </fixedLine>
      <!-- Adding 90 prefix as SMS messages could be successfully delivered to these mobile
           numbers and 55 for Megafon fr";
   "om bug reports. 00 mobile range is assigned to
           Megafon as per their confirmation. -->
      <mobile>
        <possibleLengths national=""9""/>
        <exampleNumber>917123456</exampleNumber>
        <nationalNumberPattern>
          (?:
            33[03-9]|
            4(?:
              1[18]|
              4[02-479]
            )|
            81[1-9]
          )\d{6}|
          (?:
            [09]\d|
            1[0-27-9]|
            2[0-27]|
            3[08]|
            40|
            5[05]|
            66|
            7[0157-9]|
            8[07-9]
          )\d{7}
        </nationalNumberPattern>
      </mobile>
    </territory>"];
  ["

    <!-- Tokelau (TK) -->
    <!-- http://www.itu.int/oth/T02020000D2/en -->
    <territory id=""TK"" countryCode=""690"" internationalPrefix=""00"">
      <generalDesc>
        <nationalNumberPattern>[2-47]\d{3,6}</nationalNumberPattern>
      </generalDesc>
      <!-- The example number is the contact number fr";
   "om the ITU document. -->
      <fixedLine>
        <possibleLengths national=""[4-7]""/>
        <exampleNumber>3101</exampleNumber>
        <nationalNumberPattern>
          (?:
            2[2-4]|
            [34]\d
          )\d{2,5}
        </nationalNumberPattern>
      </fixedLine>
      <!-- No evidence has been found for prefixes 5, 6, 8, and 9 which are
           described as non-geographic service numbers, so these prefixes are
           excluded until more information is found. -->
      <mobile>
        <possibleLengths national=""[4-7]""/>
        <exampleNumber>7290</exampleNumber>
        <nationalNumberPattern>7[2-4]\d{2,5}</nationalNumberPattern>
      </mobile>
    </territory>"];
  ["

    <!-- Timor-Leste (TL) -->
    <!-- http://www.itu.int/oth/T02020000D0/en -->
    <territory id=""TL"" countryCode=""670"" internationalPrefix=""00"">
      <availableFormats>
        <numberFormat pattern=""(\d{3})(\d{4})"">
          <leadingDigits>
            [2-489]|
            70
          </leadingDigits>
          <format>$1 $2</format>
        </numberFormat>
        <!-- Since numbers grew an extra digit, we have no indication of how people are formatting
             them. If we see another pattern being used, we should change this later. -->
        <numberFormat pattern=""(\d{4})(\d{4})"">
          <leadingDigits>7</leadingDigits>
          <format>$1 $2</format>
        </numberFormat>
      </availableFormats>
      <generalDesc>
        <nationalNumberPattern>
          7\d{7}|
          (?:
            [2-47]\d|
            [89]0
          )\d{5}
        </nationalNumberPattern>
      </generalDesc>
      <fixedLine>
        <possibleLengths national=""7""/>
        <exampleNumber>2112345</exampleNumber>
        <nationalNumberPattern>
          (?:
            2[1-5]|
            3[1-9]|
            4[1-4]
          )\d{5}
        </nationalNumberPattern>
      </fixedLine>
      <mobile>
        <possibleLengths national=""8""/>
        <exampleNumber>77212345</exampleNumber>
        <nationalNumberPattern>7[2-8]\d{6}</nationalNumberPattern>
      </mobile>
      <tollFree>
        <possibleLengths national=""7""/>
        <exampleNumber>8012345</exampleNumber>
        <nationalNumberPattern>80\d{5}</nationalNumberPattern>
      </tollFree>
      <premiumRate>
        <possibleLengths national=""7""/>
        <exampleNumber>9012345</exampleNumber>
        <nationalNumberPattern>90\d{5}</nationalNumberPattern>
      </premiumRate>
      <!-- We don't in";
   "clude paging or voicemail because the identified paging range was used by
           mobile previously, and for voicemail, it is unclear if the 2012 change affected these
           numbers, or if the range was indeed previously used for voicemail at all. -->
";
   "      <!-- We presume this wasn't affected by the numbering plan update. -->
      <personalNumber>
        <possibleLengths national=""7""/>
        <exampleNumber>7012345</exampleNumber>
        <nationalNumberPattern>70\d{5}</nationalNumberPattern>
      </personalNumber>
    </territory>"];
  ["

    <!-- Turkmenistan (TM) -->
    <!-- No tollFree or premiumRate information can be found. -->
    <!-- http://www.itu.int/oth/T02020000D7/en -->
    <!-- http://en.wikipedia.org/wiki/Telephone_numbers_in_Turkmenistan -->
    <territory id=""TM"" countryCode=""993"" preferredInternationalPrefix=""8~10""
               internationalPrefix=""810"" nationalPrefix=""8"">
      <availableFormats>
        <!-- There doesn't seem to be a standardized format. The format below is based on the
             Turkmenistan embassy at
             http://www.turkmenistanembassy.org/turkmen/info/contact.html -->
        <numberFormat pattern=""(\d{2})(\d{2})(\d{2})(\d{2})""
                      nationalPrefixFormattingRule=""($NP $FG)"">
          <leadingDigits>12</leadingDigits>
          <format>$1 $2-$3-$4</format>
        </numberFormat>
        <numberFormat pattern=""(\d{3})(\d)(\d{2})(\d{2})"" nationalPrefixFormattingRule=""($NP $FG)"">
          <leadingDigits>[1-5]</leadingDigits>
          <format>$1 $2-$3-$4</format>
        </numberFormat>
        <numberFormat pattern=""(\d{2})(\d{6})"" nationalPrefixFormattingRule=""$NP $FG"">
          <leadingDigits>[67]</leadingDigits>
          <format>$1 $2</format>
        </numberFormat>
      </availableFormats>
      <generalDesc>
        <nationalNumberPattern>
          (?:
            [1-6]\d|
            71
          )\d{6}
        </nationalNumberPattern>
      </generalDesc>
      <!-- Additional prefixes fr";
   "om the wikipedia page. -->
      <fixedLine>
        <possibleLengths national=""8""/>
        <exampleNumber>12345678</exampleNumber>
        <nationalNumberPattern>
          (?:
            1(?:
              2\d|
              3[1-9]
            )|
            2(?:
              22|
              4[0-35-8]
            )|
            3(?:
              22|
              4[03-9]
            )|
            4(?:
              22|
              3[128]|
              4\d|
              6[15]
            )|
            5(?:
              22|
";
   "              5[7-9]|
              6[014-689]
            )
          )\d{5}
        </nationalNumberPattern>
      </fixedLine>
      <!-- According to feedback fr";
   "om users, the carrier Altyn Asyr is the only one currently
           operating, with the numbers 6[3-5]\d{6}. MTS used to operate the ranges 6[6-8] but this
           has been suspended. It is unclear whether it will resume. We support both ranges in the
           meantime. The range 62 seems also now to be in use, according to numbers found online.
           MTS Turkmenistan have recently launched their NDC(69). So added range 69 after getting
           confirmation fr";
   "om the carriers who own them. -->
      <mobile>
        <possibleLengths national=""8""/>
        <exampleNumber>66123456</exampleNumber>
        <nationalNumberPattern>
          (?:
            6\d|
            71
          )\d{6}
        </nationalNumberPattern>
      </mobile>
    </territory>"];
  ["

    <!-- Tunisia (TN) -->
    <!-- http://www.itu.int/oth/T02020000D5/en -->
    <!-- http://www.tunisietelecom.tn/tt/wcm/connect/?MOD=PDMProxy&TYPE=personalization&ID=NONE&KEY=NONE&LIBRARY=%2FcontentRoot%2Ficm%3Alibraries%5B16%5D&FOLDER=%2F&DOC_NAME=%2FcontentRoot%2Ficm%3Alibraries%5B16%5D%2FOTTI+2011.pdf -->
    <!-- http://www.tunisietelecom.tn/tt/internet/fr/pme/fixe/numeros_acceuil -->
    <territory id=""TN"" countryCode=""216"" internationalPrefix=""00"">
      <availableFormats>
        <numberFormat pattern=""(\d{2})(\d{3})(\d{3})"">
          <leadingDigits>[2-57-9]</leadingDigits>
          <format>$1 $2 $3</format>
        </numberFormat>
      </availableFormats>
      <generalDesc>
        <nationalNumberPattern>[2-57-9]\d{7}</nationalNumberPattern>
      </generalDesc>
      <!-- All 3[0-2] range numbers are mentioned as fixed-line in 20.II.2012 ITU doc. Few of
           these are supported in mobile also as 28.IX.2015 ITU doc mentions these as ""Restricted
           Mobility"" numbers. -->
      <fixedLine>
        <possibleLengths national=""8""/>
        <exampleNumber>30010123</exampleNumber>
        <nationalNumberPattern>
          81200\d{3}|
          (?:
            3[0-2]|
            7\d
          )\d{6}
        </nationalNumberPattern>
      </fixedLine>
      <!-- All Restricted Mobility numbers mentioned in ITU doc are supported as mobile based on
           user report. -->
      <mobile>
        <possibleLengths national=""8""/>
        <exampleNumber>20123456</exampleNumber>
        <nationalNumberPattern>
          3(?:
            001|
            [12]40
          )\d{4}|
          (?:
            (?:
              [259]\d|
              4[0-8]
            )\d|
            3(?:
              1[1-35]|
              6[0-4]|
              91
            )
          )\d{5}
        </nationalNumberPattern>
      </mobile>
      <!-- ITU lists 80 xx xx xx, but the document published by Tunisie Telecom has more specific
           information which is followed here. -->
";
   "      <tollFree>
        <possibleLengths national=""8""/>
        <exampleNumber>80101234</exampleNumber>
        <nationalNumberPattern>8010\d{4}</nationalNumberPattern>
      </tollFree>
      <premiumRate>
        <possibleLengths national=""8""/>
        <exampleNumber>88123456</exampleNumber>
        <nationalNumberPattern>88\d{6}</nationalNumberPattern>
      </premiumRate>
      <!-- 8110xxxx numbers are listed as being ""discounted non-geographical numbers"" and are put
           here for now. In the future we might consider them as UAN.
           ITU lists 82 xx xx xx, but the document published by Tunisie Telecom has more specific
           information which is followed here. -->
      <sharedCost>
        <possibleLengths national=""8""/>
        <exampleNumber>81101234</exampleNumber>
        <nationalNumberPattern>8[12]10\d{4}</nationalNumberPattern>
      </sharedCost>
    </territory>"];
  ["

    <!-- Tonga (TO) -->
    <!-- http://www.itu.int/oth/T02020000D3/en -->
    <!-- http://www.wtng.info/wtng-676-to.html -->
    <territory id=""TO"" countryCode=""676"" internationalPrefix=""00"">
      <availableFormats>
        <numberFormat pattern=""(\d{2})(\d{3})"">
          <leadingDigits>
            [2-4]|
            50|
            6[09]|
            7[0-24-69]|
            8[05]
          </leadingDigits>
          <format>$1-$2</format>
        </numberFormat>
        <numberFormat pattern=""(\d{4})(\d{3})"">
          <leadingDigits>0</leadingDigits>
          <format>$1 $2</format>
        </numberFormat>
        <!-- Format for mobile and premium rate numbers. -->
        <numberFormat pattern=""(\d{3})(\d{4})"">
          <leadingDigits>[5-9]</leadingDigits>
          <format>$1 $2</format>
        </numberFormat>
      </availableFormats>
      <generalDesc>
        <nationalNumberPattern>
          (?:
            0800|
            (?:
              [5-8]\d\d|
              999
            )\d
          )\d{3}|
          [2-8]\d{4}
        </nationalNumberPattern>
      </generalDesc>
      <fixedLine>
        <possibleLengths national=""5""/>
        <exampleNumber>20123</exampleNumber>
        <nationalNumberPattern>
          (?:
            2\d|
            3[0-8]|
            4[0-4]|
            50|
            6[09]|
            7[0-24-69]|
            8[05]
          )\d{3}
        </nationalNumberPattern>
      </fixedLine>
      <!-- TCC mobile numbers were given a prefix of ""77"" in 2009, although this is not mentioned
           in their ITU document. Numbers with a prefix of 75, 84 and 86 have also been found. -->
      <mobile>
        <possibleLengths national=""7""/>
        <exampleNumber>7715123</exampleNumber>
        <nationalNumberPattern>
          (?:
            5(?:
              4[0-5]|
              5[4-6]
            )|
            6(?:
              [09]\d|
              3[02]|
              8[15-9]
            )|
            (?:
              7\d|
";
   "              8[46-9]
            )\d|
            999
          )\d{4}
        </nationalNumberPattern>
      </mobile>
      <tollFree>
        <possibleLengths national=""7""/>
        <exampleNumber>0800222</exampleNumber>
        <nationalNumberPattern>0800\d{3}</nationalNumberPattern>
      </tollFree>
      <voip>
        <possibleLengths national=""7""/>
        <exampleNumber>5510123</exampleNumber>
        <nationalNumberPattern>55[0-37-9]\d{4}</nationalNumberPattern>
      </voip>
    </territory>"];
  ["

    <!-- Türkiye (TR) -->
    <!-- http://en.wikipedia.org/wiki/%2B90 -->
    <!-- http://www.itu.int/oth/T02020000D6/en -->
    <!-- https://www.btk.gov.tr/genel-numaralandirma-plani -->
    <!-- https://www.btk.gov.tr/tr-TR/Sayfalar/Isletmecilere-Tahsisli-Numaralar -->
    <territory id=""TR"" countryCode=""90"" internationalPrefix=""00"" nationalPrefix=""0""
               mobileNumberPortableRegion=""true"">
      <availableFormats>
        <!-- 7-digit UAN. -->
        <numberFormat pattern=""(\d{3})(\d)(\d{3})"" nationalPrefixOptionalWhenFormatting=""true"">
          <leadingDigits>444</leadingDigits>
          <format>$1 $2 $3</format>
          <intlFormat>NA</intlFormat>
        </numberFormat>
        <!-- Fixed line, UAN, pager. -->
        <numberFormat pattern=""(\d{3})(\d{3})(\d{4})"" nationalPrefixFormattingRule=""$NP$FG""
                      nationalPrefixOptionalWhenFormatting=""true"">
          <leadingDigits>
            512|
            8[01589]|
            90
          </leadingDigits>
          <format>$1 $2 $3</format>
        </numberFormat>
        <!-- Mobile and personal numbers. -->
        <numberFormat pattern=""(\d{3})(\d{3})(\d{2})(\d{2})"" nationalPrefixFormattingRule=""$NP$FG""
                      nationalPrefixOptionalWhenFormatting=""true"">
          <leadingDigits>5[0-79]</leadingDigits>
          <format>$1 $2 $3 $4</format>
        </numberFormat>
        <!-- In online references we see both these formats for mobile and fixed-line numbers:
             (\d{3})(\d{3})(\d{2})(\d{2}) and (\d{3})(\d{3})(\d{4}). However the former seems to be
             more common. -->
        <numberFormat pattern=""(\d{3})(\d{3})(\d{2})(\d{2})"" nationalPrefixFormattingRule=""($NP$FG)""
                      nationalPrefixOptionalWhenFormatting=""true"">
          <leadingDigits>
            [24][1-8]|
            3[1-9]
          </leadingDigits>
          <format>$1 $2 $3 $4</format>
        </numberFormat>
        <!-- 12 -13 digit toll free numbers -->
        <numberFormat pattern=""(\d{3})(\d{3})(\d{6,7})"" nationalPrefixFormattingRule=""$NP$FG""
";
   "                      nationalPrefixOptionalWhenFormatting=""true"">
          <leadingDigits>80</leadingDigits>
          <format>$1 $2 $3</format>
        </numberFormat>
      </availableFormats>
      <generalDesc>
        <nationalNumberPattern>
          4\d{6}|
          8\d{11,12}|
          (?:
            [2-58]\d\d|
            900
          )\d{7}
        </nationalNumberPattern>
      </generalDesc>
      <noInternationalDialling>
        <possibleLengths national=""7,10""/>
        <nationalNumberPattern>
          (?:
            444|
            811\d{3}
          )\d{4}
        </nationalNumberPattern>
      </noInternationalDialling>
      <!-- Includes numbers starting with 392 for Northern Cyprus. Not supporting additionally
           allocated area codes that are mentioned in ITU doc dated 7.VII.2009 as these are not
           mentioned in new ITU doc dated 2.III.2018. -->
      <fixedLine>
        <possibleLengths national=""10""/>
        <exampleNumber>2123456789</exampleNumber>
        <nationalNumberPattern>
          (?:
            2(?:
              1[26]|
              [28][2468]|
              [3-5][268]|
              [67][246]
            )|
            3(?:
              [13][28]|
              [24-6][2468]|
              [78][02468]|
              92
            )|
            4(?:
              [16][246]|
              [23578][2468]|
              4[26]
            )
          )\d{7}
        </nationalNumberPattern>
      </fixedLine>
      <!-- There are some differences between the Turkish and English wikipedia pages here, and
           some number prefixes do not seem to be able to be found online. Omitting 500, 508 and
           509 fr";
   "om the English page because of this. -->
      <mobile>
        <possibleLengths national=""10""/>
        <exampleNumber>5012345678</exampleNumber>
        <nationalNumberPattern>
          561(?:
            011|
            61\d
          )\d{4}|
          5(?:
            [03-5]\d|
            1[06]|
";
   "            24|
            6[24]|
            7[245]|
            9[46]
          )\d{7}
        </nationalNumberPattern>
      </mobile>
      <!-- 512 range is mentioned as call services number in eng.btk.gov.tr's doc. As we not sure
           of the category, supporting them as pager based on Wikipedia. -->
      <pager>
        <possibleLengths national=""10""/>
        <exampleNumber>5123456789</exampleNumber>
        <nationalNumberPattern>512\d{7}</nationalNumberPattern>
      </pager>
      <!-- Toll free range 800 of length 13 digits and 811 of length 10 digits are supported based
           on user report. -->
      <tollFree>
        <possibleLengths national=""10,12,13""/>
        <exampleNumber>8001234567</exampleNumber>
        <nationalNumberPattern>
          8(?:
            00\d{7}(?:
              \d{2,3}
            )?|
            11\d{7}
          )
        </nationalNumberPattern>
      </tollFree>
      <premiumRate>
        <possibleLengths national=""10""/>
        <exampleNumber>9001234567</exampleNumber>
        <nationalNumberPattern>
          (?:
            8[89]8|
            900
          )\d{7}
        </nationalNumberPattern>
      </premiumRate>
      <!-- All 592 numbers are GMPCS numbers (personal satellite numbers) as per ITU doc. We do
           support only the ranges that are assigned (max 6 digit granularity) based on
           eng.btk.gov.tr's doc. -->
      <personalNumber>
        <possibleLengths national=""10""/>
        <exampleNumber>5922121234</exampleNumber>
        <nationalNumberPattern>
          592(?:
            21[12]|
            461
          )\d{4}
        </nationalNumberPattern>
      </personalNumber>
      <!-- Prefix 850 was earlier supported as UAN but after user report and other sources, found
           that they belong to VOIP. -->
      <voip>
        <possibleLengths national=""10""/>
        <exampleNumber>8500123456</exampleNumber>
        <nationalNumberPattern>850\d{7}</nationalNumberPattern>
      </voip>
";
   "      <!-- http://www.turktelekom.com.tr/tt/portal/News/Archive/7-digit-special-service-number-starting-with-444 -->
      <uan>
        <possibleLengths national=""7""/>
        <exampleNumber>4441444</exampleNumber>
        <nationalNumberPattern>444\d{4}</nationalNumberPattern>
      </uan>
    </territory>"];
  ["

    <!-- Trinidad & Tobago (TT) -->
    <!-- Calling code and formatting shared with 'US' -->
    <!-- http://www.itu.int/oth/T02020000D4/en -->
    <territory id=""TT"" countryCode=""1"" leadingDigits=""868"" internationalPrefix=""011""
               nationalPrefix=""1"" nationalPrefixForParsing=""([2-46-8]\d{6})$|1""
               nationalPrefixTransformRule=""868$1"" mobileNumberPortableRegion=""true"">
      <generalDesc>
        <nationalNumberPattern>
          (?:
            [58]\d\d|
            900
          )\d{7}
        </nationalNumberPattern>
      </generalDesc>
      <!-- Added support to 609, 61[0278], 699 and 824 fixed-line ranges based on official doc
           fr";
   "om TATT. -->
      <fixedLine>
        <possibleLengths national=""10"" localOnly=""7""/>
        <exampleNumber>8682211234</exampleNumber>
        <nationalNumberPattern>
          868(?:
            2(?:
              01|
              1[5-9]|
              [23]\d|
              4[0-2]
            )|
            6(?:
              0[7-9]|
              1[02-8]|
              2[1-9]|
              [3-69]\d|
              7[0-79]
            )|
            82[124]
          )\d{4}
        </nationalNumberPattern>
      </fixedLine>
      <!-- We support below mobile ranges additionally which are not listed in ITU doc.
           - 270: Found valid numbers online.
           - 26[6-9] and 48[5-9]: Evidence fr";
   "om bmobile.
           - 70[1-9]: Official TATT doc. -->
      <mobile>
        <possibleLengths national=""10"" localOnly=""7""/>
        <exampleNumber>8682911234</exampleNumber>
        <nationalNumberPattern>
          868(?:
            (?:
              2[5-9]|
              3\d
            )\d|
            4(?:
              3[0-6]|
              [6-9]\d
            )|
            6(?:
              20|
              78|
              8\d
            )|
            7(?:
              0[1-9]|
              1[02-9]|
              [2-9]\d
            )
          )\d{4}
        </nationalNumberPattern>
";
   "      </mobile>
      <tollFree>
        <possibleLengths national=""10""/>
        <exampleNumber>8002345678</exampleNumber>
        <nationalNumberPattern>
          868800\d{4}|
          8(?:
            00|
            33|
            44|
            55|
            66|
            77|
            88
          )[2-9]\d{6}
        </nationalNumberPattern>
      </tollFree>
      <premiumRate>
        <possibleLengths national=""10""/>
        <exampleNumber>9002345678</exampleNumber>
        <nationalNumberPattern>900[2-9]\d{6}</nationalNumberPattern>
      </premiumRate>
      <!-- https://www.nationalnanpa.com/number_resource_info/5XX_codes.html -->
      <personalNumber>
        <possibleLengths national=""10""/>
        <exampleNumber>5002345678</exampleNumber>
        <nationalNumberPattern>
          52(?:
            3(?:
              [2-46-9][02-9]\d|
              5(?:
                [02-46-9]\d|
                5[0-46-9]
              )
            )|
            4(?:
              [2-478][02-9]\d|
              5(?:
                [034]\d|
                2[024-9]|
                5[0-46-9]
              )|
              6(?:
                0[1-9]|
                [2-9]\d
              )|
              9(?:
                [05-9]\d|
                2[0-5]|
                49
              )
            )
          )\d{4}|
          52[34][2-9]1[02-9]\d{4}|
          5(?:
            00|
            2[125-9]|
            3[23]|
            44|
            66|
            77|
            88
          )[2-9]\d{6}
        </nationalNumberPattern>
      </personalNumber>
      <voicemail>
        <possibleLengths national=""10"" localOnly=""7""/>
        <exampleNumber>8686191234</exampleNumber>
        <nationalNumberPattern>868619\d{4}</nationalNumberPattern>
      </voicemail>
    </territory>"];
  ["

    <!-- Tuvalu (TV) -->
    <!-- http://www.itu.int/oth/T02020000D9/en -->
    <!-- http://en.wikipedia.org/wiki/Telephone_numbers_in_Tuvalu -->
    <territory id=""TV"" countryCode=""688"" internationalPrefix=""00"">
      <availableFormats>
        <numberFormat pattern=""(\d{2})(\d{3})"">
          <leadingDigits>2</leadingDigits>
          <format>$1 $2</format>
        </numberFormat>
        <numberFormat pattern=""(\d{2})(\d{4})"">
          <leadingDigits>90</leadingDigits>
          <format>$1 $2</format>
        </numberFormat>
        <numberFormat pattern=""(\d{2})(\d{5})"">
          <leadingDigits>7</leadingDigits>
          <format>$1 $2</format>
        </numberFormat>
      </availableFormats>
      <generalDesc>
        <nationalNumberPattern>
          (?:
            2|
            7\d\d|
            90
          )\d{4}
        </nationalNumberPattern>
      </generalDesc>
      <fixedLine>
        <possibleLengths national=""5""/>
        <exampleNumber>20123</exampleNumber>
        <nationalNumberPattern>2[02-9]\d{3}</nationalNumberPattern>
      </fixedLine>
      <!-- Some numbers online can be found that are 5-digits long, and start with 90 or 91. We
           don't know if these are valid or not - the ITU document excludes them - so are not
           covering these for now. -->
      <mobile>
        <possibleLengths national=""6,7""/>
        <exampleNumber>901234</exampleNumber>
        <nationalNumberPattern>
          (?:
            7[01]\d|
            90
          )\d{4}
        </nationalNumberPattern>
      </mobile>
    </territory>"];
  ["

    <!-- Taiwan (TW) -->
    <!-- Extension symbols found on the internet so far have been #, X and Ext - so # has been
         chosen as the preferred extension prefix. -->
    <!-- http://www.itu.int/oth/T02020000EB/en -->
    <!-- https://www.ncc.gov.tw/chinese/files/07080/265_1037_070808_1.doc -->
    <territory id=""TW"" countryCode=""886"" internationalPrefix=""0(?:0[25-79]|19)"" nationalPrefix=""0""
               preferredExtnPrefix=""#"" mobileNumberPortableRegion=""true"">
      <availableFormats>
        <!-- Premium rate. -->
        <numberFormat pattern=""(\d{2})(\d)(\d{4})"" nationalPrefixFormattingRule=""$NP$FG"">
          <leadingDigits>202</leadingDigits>
          <format>$1 $2 $3</format>
        </numberFormat>
        <numberFormat pattern=""(\d{3})(\d{5})"" nationalPrefixFormattingRule=""$NP$FG"">
          <leadingDigits>826</leadingDigits>
          <format>$1 $2</format>
        </numberFormat>
        <numberFormat pattern=""(\d{3})(\d{2})(\d{3})"" nationalPrefixFormattingRule=""$NP$FG"">
          <leadingDigits>83</leadingDigits>
          <format>$1 $2 $3</format>
        </numberFormat>
        <numberFormat pattern=""(\d{2})(\d{2})(\d{4})"" nationalPrefixFormattingRule=""$NP$FG"">
          <leadingDigits>82</leadingDigits>
          <format>$1 $2 $3</format>
        </numberFormat>
        <!-- Fixed line and UAN. -->
        <numberFormat pattern=""(\d{2})(\d{3})(\d{3,4})"" nationalPrefixFormattingRule=""$NP$FG"">
          <leadingDigits>
            [25]0|
            37|
            49|
            8[09]
          </leadingDigits>
          <format>$1 $2 $3</format>
        </numberFormat>
        <!-- Fixed line. -->
        <numberFormat pattern=""(\d)(\d{3,4})(\d{4})"" nationalPrefixFormattingRule=""$NP$FG"">
          <leadingDigits>
            [23568]|
            4(?:
              0[02-48]|
              [1-478]
            )|
            7[1-9]
          </leadingDigits>
          <leadingDigits>
            [23568]|
            4(?:
              0[2-48]|
";
   "              [1-478]
            )|
            (?:
              400|
              7
            )[1-9]
          </leadingDigits>
          <format>$1 $2 $3</format>
        </numberFormat>
        <!-- Mobile and personal numbers. -->
        <numberFormat pattern=""(\d{3})(\d{3})(\d{3})"" nationalPrefixFormattingRule=""$NP$FG"">
          <leadingDigits>[49]</leadingDigits>
          <format>$1 $2 $3</format>
        </numberFormat>
        <!-- VOIP. -->
        <numberFormat pattern=""(\d{2})(\d{4})(\d{4,5})"" nationalPrefixFormattingRule=""$NP$FG"">
          <leadingDigits>7</leadingDigits>
          <format>$1 $2 $3</format>
        </numberFormat>
      </availableFormats>
      <generalDesc>
        <nationalNumberPattern>
          [2-689]\d{8}|
          7\d{9,10}|
          [2-8]\d{7}|
          2\d{6}
        </nationalNumberPattern>
      </generalDesc>
      <!-- Prefix 24 added due to numbers found online for two major commercial companies; it
           is possible they aren't fixed-line, but adding them here since we don't have better
           information for now. Prefix 90 is mentioned as reserved in http://www.ncc.gov.tw/
           and wikipedea states it as M2M, but we still support in Mobile as we were able to
           find working online number. Prefix 64 is added on the basis of user report. -->
      <fixedLine>
        <possibleLengths national=""8,9""/>
        <exampleNumber>221234567</exampleNumber>
        <nationalNumberPattern>
          (?:
            2[2-8]\d|
            370|
            55[01]|
            7[1-9]
          )\d{6}|
          4(?:
            (?:
              0(?:
                0[1-9]|
                [2-48]\d
              )|
              1[023]\d
            )\d{4,5}|
            (?:
              [239]\d\d|
              4(?:
                0[56]|
                12|
                49
              )
            )\d{5}
          )|
          6(?:
            [01]\d{7}|
            4(?:
              0[56]|
              12|
";
   "              24|
              4[09]
            )\d{4,5}
          )|
          8(?:
            (?:
              2(?:
                3\d|
                4[0-269]|
                [578]0|
                66
              )|
              36[24-9]|
              90\d\d
            )\d{4}|
            4(?:
              0[56]|
              12|
              24|
              4[09]
            )\d{4,5}
          )|
          (?:
            2(?:
              2(?:
                0\d\d|
                4(?:
                  0[68]|
                  [249]0|
                  3[0-467]|
                  5[0-25-9]|
                  6[0235689]
                )
              )|
              (?:
                3(?:
                  [09]\d|
                  1[0-4]
                )|
                (?:
                  4\d|
                  5[0-49]|
                  6[0-29]|
                  7[0-5]
                )\d
              )\d
            )|
            (?:
              (?:
                3[2-9]|
                5[2-8]|
                6[0-35-79]|
                8[7-9]
              )\d\d|
              4(?:
                2(?:
                  [089]\d|
                  7[1-9]
                )|
                (?:
                  3[0-4]|
                  [78]\d|
                  9[01]
                )\d
              )
            )\d
          )\d{3}
        </nationalNumberPattern>
      </fixedLine>
      <mobile>
        <possibleLengths national=""9""/>
        <exampleNumber>912345678</exampleNumber>
        <nationalNumberPattern>
          (?:
            40001[0-2]|
            9[0-8]\d{4}
          )\d{3}
        </nationalNumberPattern>
      </mobile>
      <tollFree>
        <possibleLengths national=""8,9""/>
        <exampleNumber>800123456</exampleNumber>
        <nationalNumberPattern>
          80[0-79]\d{6}|
          800\d{5}
        </nationalNumberPattern>
      </tollFree>
      <premiumRate>
        <possibleLengths national=""7,9""/>
";
   "        <exampleNumber>203123456</exampleNumber>
        <nationalNumberPattern>
          20(?:
            [013-9]\d\d|
            2
          )\d{4}
        </nationalNumberPattern>
      </premiumRate>
      <personalNumber>
        <possibleLengths national=""9""/>
        <exampleNumber>990123456</exampleNumber>
        <nationalNumberPattern>99\d{7}</nationalNumberPattern>
      </personalNumber>
      <!-- http://www.chief.com.tw/telecom_eng/front/bin/ptlist.phtml?Category=107 -->
      <voip>
        <possibleLengths national=""10,11""/>
        <exampleNumber>7012345678</exampleNumber>
        <nationalNumberPattern>
          7010(?:
            [0-2679]\d|
            3[0-7]|
            8[0-5]
          )\d{5}|
          70\d{8}
        </nationalNumberPattern>
      </voip>
      <uan>
        <possibleLengths national=""9""/>
        <exampleNumber>500123456</exampleNumber>
        <nationalNumberPattern>50[0-46-9]\d{6}</nationalNumberPattern>
      </uan>
    </territory>"];
  ["

    <!-- Tanzania (TZ) -->
    <!-- http://www.itu.int/oth/T02020000CB/en -->
    <territory id=""TZ"" countryCode=""255"" internationalPrefix=""00[056]"" nationalPrefix=""0"">
      <availableFormats>
        <!-- Formatting for special numbers fr";
   "om http://www.tcra.go.tz -->
        <numberFormat pattern=""(\d{3})(\d{2})(\d{4})"" nationalPrefixFormattingRule=""$NP$FG"">
          <leadingDigits>[89]</leadingDigits>
          <format>$1 $2 $3</format>
        </numberFormat>
        <numberFormat pattern=""(\d{2})(\d{3})(\d{4})"" nationalPrefixFormattingRule=""$NP$FG"">
          <leadingDigits>[24]</leadingDigits>
          <format>$1 $2 $3</format>
        </numberFormat>
        <!-- ITU format: +255 5X XXXXXXX -->
        <numberFormat pattern=""(\d{2})(\d{7})"">
          <leadingDigits>5</leadingDigits>
          <format>$1 $2</format>
        </numberFormat>
        <numberFormat pattern=""(\d{3})(\d{3})(\d{3})"" nationalPrefixFormattingRule=""$NP$FG"">
          <leadingDigits>[67]</leadingDigits>
          <format>$1 $2 $3</format>
        </numberFormat>
      </availableFormats>
      <generalDesc>
        <nationalNumberPattern>
          (?:
            [25-8]\d|
            41|
            90
          )\d{7}
        </nationalNumberPattern>
      </generalDesc>
      <noInternationalDialling>
        <possibleLengths national=""9""/>
        <nationalNumberPattern>
          (?:
            8(?:
              [04]0|
              6[01]
            )|
            90\d
          )\d{6}
        </nationalNumberPattern>
      </noInternationalDialling>
      <fixedLine>
        <possibleLengths national=""9""/>
        <exampleNumber>222345678</exampleNumber>
        <nationalNumberPattern>2[2-8]\d{7}</nationalNumberPattern>
      </fixedLine>
      <mobile>
        <possibleLengths national=""9""/>
        <exampleNumber>621234567</exampleNumber>
        <nationalNumberPattern>
          (?:
            6[1-35-9]|
            7[013-9]
          )\d{7}
        </nationalNumberPattern>
";
   "      </mobile>
      <tollFree>
        <possibleLengths national=""9""/>
        <exampleNumber>800123456</exampleNumber>
        <nationalNumberPattern>80[08]\d{6}</nationalNumberPattern>
      </tollFree>
      <premiumRate>
        <possibleLengths national=""9""/>
        <exampleNumber>900123456</exampleNumber>
        <nationalNumberPattern>90\d{7}</nationalNumberPattern>
      </premiumRate>
      <sharedCost>
        <possibleLengths national=""9""/>
        <exampleNumber>840123456</exampleNumber>
        <nationalNumberPattern>
          8(?:
            40|
            6[01]
          )\d{6}
        </nationalNumberPattern>
      </sharedCost>
      <voip>
        <possibleLengths national=""9""/>
        <exampleNumber>412345678</exampleNumber>
        <nationalNumberPattern>41\d{7}</nationalNumberPattern>
      </voip>
    </territory>"];
  ["

    <!-- Ukraine (UA) -->
    <!-- http://www.itu.int/oth/T02020000DB/en -->
    <!-- http://en.wikipedia.org/wiki/%2B380 -->
    <!-- No definitive list has been found of what constitutes the area code for formatting.
         http://www.ua.all-biz.info/guide/phonecodes is useful but not error-free.
         Have used lo";
   "cal yellow pages guidelines, Google searches, regression tests
         and bugs to reverse-engineer the formatting rules. -->
    <territory id=""UA"" countryCode=""380"" preferredInternationalPrefix=""0~0"" internationalPrefix=""00""
               nationalPrefix=""0"">
      <availableFormats>
        <!-- Fixed line -->
        <numberFormat pattern=""(\d{3})(\d{3})(\d{3})"" nationalPrefixFormattingRule=""$NP$FG"">
          <leadingDigits>
            6[12][29]|
            (?:
              3[1-8]|
              4[136-8]|
              5[12457]|
              6[49]
            )2|
            (?:
              56|
              65
            )[24]
          </leadingDigits>
          <leadingDigits>
            6[12][29]|
            (?:
              35|
              4[1378]|
              5[12457]|
              6[49]
            )2|
            (?:
              56|
              65
            )[24]|
            (?:
              3[1-46-8]|
              46
            )2[013-9]
          </leadingDigits>
          <format>$1 $2 $3</format>
        </numberFormat>
        <!-- Fixed line (4-digit area code). -->
        <numberFormat pattern=""(\d{4})(\d{5})"" nationalPrefixFormattingRule=""$NP$FG"">
          <leadingDigits>
            3[1-8]|
            4(?:
              [1367]|
              [45][6-9]|
              8[4-6]
            )|
            5(?:
              [1-5]|
              6[0135689]|
              7[4-6]
            )|
            6(?:
              [12][3-7]|
              [459]
            )
          </leadingDigits>
          <leadingDigits>
            3[1-8]|
            4(?:
              [1367]|
              [45][6-9]|
              8[4-6]
";
   "            )|
            5(?:
              [1-5]|
              6(?:
                [015689]|
                3[02389]
              )|
              7[4-6]
            )|
            6(?:
              [12][3-7]|
              [459]
            )
          </leadingDigits>
          <format>$1 $2</format>
        </numberFormat>
        <!-- General format (fixed line, mobile, voip etc.) -->
        <numberFormat pattern=""(\d{2})(\d{3})(\d{4})"" nationalPrefixFormattingRule=""$NP$FG"">
          <leadingDigits>
            [3-7]|
            89|
            9[1-9]
          </leadingDigits>
          <format>$1 $2 $3</format>
        </numberFormat>
        <!-- Premium Rate and Toll Free -->
        <numberFormat pattern=""(\d{3})(\d{3})(\d{3,4})"" nationalPrefixFormattingRule=""$NP$FG"">
          <leadingDigits>[89]</leadingDigits>
          <format>$1 $2 $3</format>
        </numberFormat>
      </availableFormats>
      <generalDesc>
        <nationalNumberPattern>
          [89]\d{9}|
          [3-9]\d{8}
        </nationalNumberPattern>
      </generalDesc>
      <!-- Official numbering plan https://regulation.gov.ua/documents/id89506 (Dated: 23.11.2006)
           mentions that xx[018] (xx represents valid area code) fixed-line numbers as invalid and
           we are also unable to find valid numbers online. This doc is already outdated and
           contradicted (Eg: length of NSN) by some more recent evidence. Considering the impact
           we choose not to mark those ranges as invalid. -->
      <fixedLine>
        <possibleLengths national=""9"" localOnly=""[5-7]""/>
        <exampleNumber>311234567</exampleNumber>
        <nationalNumberPattern>
          (?:
            3[1-8]|
            4[13-8]|
            5[1-7]|
            6[12459]
          )\d{7}
        </nationalNumberPattern>
      </fixedLine>
      <!-- Added 71 prefix based on user report and 72 based on online numbers.  -->
      <mobile>
        <possibleLengths national=""9""/>
        <exampleNumber>501234567</exampleNumber>
";
   "        <nationalNumberPattern>
          790\d{6}|
          (?:
            39|
            50|
            6[36-8]|
            7[1-357]|
            9[1-9]
          )\d{7}
        </nationalNumberPattern>
      </mobile>
      <tollFree>
        <possibleLengths national=""9,10""/>
        <exampleNumber>800123456</exampleNumber>
        <nationalNumberPattern>800[1-8]\d{5,6}</nationalNumberPattern>
      </tollFree>
      <!-- 4th digit added based on
           http://www.mts.ua/ru/support/services/200-tarify-na-nomera-0-800-0-900-0-703/ -->
      <premiumRate>
        <possibleLengths national=""9,10""/>
        <exampleNumber>900212345</exampleNumber>
        <nationalNumberPattern>900[239]\d{5,6}</nationalNumberPattern>
      </premiumRate>
      <!-- 89[1-579] ranges are mentioned as ""Non-geographic number – mobile services assigned"" in
           the ITU doc. All the 89X phone numbers found online are listed as conference calls and
           skype calls which are actually VOIP. And also the companies to which these ranges are
           assigned (as per ITU doc) are more of VOIP service providers. So supporting them under
           VOIP. -->
      <voip>
        <possibleLengths national=""9""/>
        <exampleNumber>891234567</exampleNumber>
        <nationalNumberPattern>89[1-579]\d{6}</nationalNumberPattern>
      </voip>
    </territory>"];
  ["

    <!-- Uganda (UG) -->
    <!-- http://www.itu.int/oth/T02020000F1/en -->
    <territory id=""UG"" countryCode=""256"" internationalPrefix=""00[057]"" nationalPrefix=""0"">
      <availableFormats>
        <!-- 4-digit area codes -->
        <numberFormat pattern=""(\d{4})(\d{5})"" nationalPrefixFormattingRule=""$NP$FG"">
          <leadingDigits>202</leadingDigits>
          <leadingDigits>2024</leadingDigits>
          <format>$1 $2</format>
        </numberFormat>
        <!-- Fixed and mobile format. -->
        <numberFormat pattern=""(\d{3})(\d{6})"" nationalPrefixFormattingRule=""$NP$FG"">
          <leadingDigits>
            [27-9]|
            4(?:
              6[45]|
              [7-9]
            )
          </leadingDigits>
          <format>$1 $2</format>
        </numberFormat>
        <!-- 2-digit area codes -->
        <numberFormat pattern=""(\d{2})(\d{7})"" nationalPrefixFormattingRule=""$NP$FG"">
          <leadingDigits>[34]</leadingDigits>
          <format>$1 $2</format>
        </numberFormat>
      </availableFormats>
      <generalDesc>
        <nationalNumberPattern>
          800\d{6}|
          (?:
            [29]0|
            [347]\d
          )\d{7}
        </nationalNumberPattern>
      </generalDesc>
      <!-- The ITU plan calls for all numbers to be exactly 9 digits. However, it's not clear if
           lo";
   "cal dialing is still possible. We assume it is for now. -->
      <!-- The prefix 202[5-9] was added as per the ITU update on Oct. 2011. It is not
           mentioned in the new ITU docs but they are still valid based on online
           evidence. -->
      <fixedLine>
        <possibleLengths national=""9"" localOnly=""[5-7]""/>
        <exampleNumber>312345678</exampleNumber>
        <nationalNumberPattern>
          20(?:
            (?:
              240|
              30[67]
            )\d|
            6(?:
              00[0-2]|
              30[0-4]
            )
          )\d{3}|
          (?:
            20(?:
              [017]\d|
              2[5-9]|
";
   "              3[1-4]|
              5[0-4]|
              6[15-9]
            )|
            [34]\d{3}
          )\d{5}
        </nationalNumberPattern>
      </fixedLine>
      <!-- Supporting 7[09][89] based on carrier docs. -->
      <mobile>
        <possibleLengths national=""9""/>
        <exampleNumber>712345678</exampleNumber>
        <nationalNumberPattern>
          7280\d{5}|
          7(?:
            [014-8]\d|
            2[01467]|
            3[016]|
            9[0-589]
          )\d{6}
        </nationalNumberPattern>
      </mobile>
      <tollFree>
        <possibleLengths national=""9""/>
        <exampleNumber>800123456</exampleNumber>
        <nationalNumberPattern>800[1-3]\d{5}</nationalNumberPattern>
      </tollFree>
      <premiumRate>
        <possibleLengths national=""9""/>
        <exampleNumber>901123456</exampleNumber>
        <nationalNumberPattern>90[1-3]\d{6}</nationalNumberPattern>
      </premiumRate>
    </territory>"];
  ["

    <!-- United States (US) -->
    <!-- Main region for 'AG,AI,AS,BB,BM,BS,CA,DM,DO,GD,GU,JM,KN,KY,LC,MP,MS,PR,SX,TC,TT,VC,VG,VI' -->
    <!-- Note the national prefix of US is the same as its country code, and when formatting phone
         numbers in the national format, it is not included. Therefore, we omit it here to make
         formatting consistent with the rest of the world. The same applies to all the
         countries/regions under NANPA -->
    <!-- The national prefix of ""1"" here is the same as the country code. It is not used by default
         when formatting, but is se";
   "t here so that users who are calling formatByPattern can specify
         NationalPrefixFormattingRule if they want to. -->
    <!-- http://www.nanpa.com/reports/reports_npa.html -->
    <!-- http://en.wikipedia.org/wiki/North_American_Numbering_Plan -->
    <territory id=""US"" mainCountryForCode=""true"" countryCode=""1"" internationalPrefix=""011""
               nationalPrefix=""1"" mobileNumberPortableRegion=""true"">
      <availableFormats>
        <!-- 310-xxxx (7 digit) UAN numbers . -->
        <numberFormat pattern=""(\d{3})(\d{4})"" nationalPrefixOptionalWhenFormatting=""true"">
          <leadingDigits>310</leadingDigits>
          <format>$1-$2</format>
        </numberFormat>
        <numberFormat pattern=""(\d{3})(\d{4})"">
          <leadingDigits>
            [24-9]|
            3(?:
              [02-9]|
              1[1-9]
            )
          </leadingDigits>
          <format>$1-$2</format>
          <intlFormat>NA</intlFormat>
        </numberFormat>
        <!-- A different pattern is used when formatting internationally, as the area code is no
             longer optional and should not be in brackets. -->
        <numberFormat pattern=""(\d{3})(\d{3})(\d{4})"" nationalPrefixOptionalWhenFormatting=""true"">
          <leadingDigits>[2-9]</leadingDigits>
          <format>($1) $2-$3</format>
          <intlFormat>$1-$2-$3</intlFormat>
        </numberFormat>
      </availableFormats>
";
   "      <generalDesc>
        <nationalNumberPattern>
          [2-9]\d{9}|
          3\d{6}
        </nationalNumberPattern>
      </generalDesc>
      <fixedLine>
        <possibleLengths national=""10"" localOnly=""7""/>
        <exampleNumber>2015550123</exampleNumber>
        <nationalNumberPattern>
          (?:
            274[27]|
            (?:
              472|
              983
            )[2-47-9]
          )\d{6}|
          (?:
            2(?:
              0[1-35-9]|
              1[02-9]|
              2[03-57-9]|
              3[1459]|
              4[08]|
              5[1-46]|
              6[0279]|
              7[0269]|
              8[13]
            )|
            3(?:
              0[1-57-9]|
              1[02-9]|
              2[013-79]|
              3[0-24679]|
              4[167]|
              5[0-3]|
              6[01349]|
              8[056]
            )|
            4(?:
              0[124-9]|
              1[02-579]|
              2[3-5]|
              3[0245]|
              4[023578]|
              58|
              6[349]|
              7[0589]|
              8[04]
            )|
            5(?:
              0[1-57-9]|
              1[0235-8]|
              20|
              3[0149]|
              4[01]|
              5[179]|
              6[1-47]|
              7[0-5]|
              8[0256]
            )|
            6(?:
              0[1-35-9]|
              1[024-9]|
              2[03689]|
              3[016]|
              4[0156]|
              5[01679]|
              6[0-279]|
              78|
              8[0-269]
            )|
            7(?:
              0[1-46-8]|
              1[2-9]|
              2[04-8]|
              3[0-2478]|
              4[0378]|
              5[47]|
              6[02359]|
              7[0-59]|
              8[156]
            )|
            8(?:
              0[1-68]|
              1[02-8]|
              2[0168]|
              3[0-2589]|
              4[03578]|
              5[046-9]|
";
   "              6[02-5]|
              7[028]
            )|
            9(?:
              0[1346-9]|
              1[02-9]|
              2[0589]|
              3[0146-8]|
              4[01357-9]|
              5[12469]|
              7[0-3589]|
              8[04-69]
            )
          )[2-9]\d{6}
        </nationalNumberPattern>
      </fixedLine>
      <mobile>
        <possibleLengths national=""10"" localOnly=""7""/>
        <exampleNumber>2015550123</exampleNumber>
        <nationalNumberPattern>
          (?:
            274[27]|
            (?:
              472|
              983
            )[2-47-9]
          )\d{6}|
          (?:
            2(?:
              0[1-35-9]|
              1[02-9]|
              2[03-57-9]|
              3[1459]|
              4[08]|
              5[1-46]|
              6[0279]|
              7[0269]|
              8[13]
            )|
            3(?:
              0[1-57-9]|
              1[02-9]|
              2[013-79]|
              3[0-24679]|
              4[167]|
              5[0-3]|
              6[01349]|
              8[056]
            )|
            4(?:
              0[124-9]|
              1[02-579]|
              2[3-5]|
              3[0245]|
              4[023578]|
              58|
              6[349]|
              7[0589]|
              8[04]
            )|
            5(?:
              0[1-57-9]|
              1[0235-8]|
              20|
              3[0149]|
              4[01]|
              5[179]|
              6[1-47]|
              7[0-5]|
              8[0256]
            )|
            6(?:
              0[1-35-9]|
              1[024-9]|
              2[03689]|
              3[016]|
              4[0156]|
              5[01679]|
              6[0-279]|
              78|
              8[0-269]
            )|
            7(?:
              0[1-46-8]|
              1[2-9]|
              2[04-8]|
              3[0-2478]|
              4[0378]|
              5[47]|
              6[02359]|
              7[0-59]|
";
   "              8[156]
            )|
            8(?:
              0[1-68]|
              1[02-8]|
              2[0168]|
              3[0-2589]|
              4[03578]|
              5[046-9]|
              6[02-5]|
              7[028]
            )|
            9(?:
              0[1346-9]|
              1[02-9]|
              2[0589]|
              3[0146-8]|
              4[01357-9]|
              5[12469]|
              7[0-3589]|
              8[04-69]
            )
          )[2-9]\d{6}
        </nationalNumberPattern>
      </mobile>
      <tollFree>
        <possibleLengths national=""10""/>
        <exampleNumber>8002345678</exampleNumber>
        <nationalNumberPattern>
          8(?:
            00|
            33|
            44|
            55|
            66|
            77|
            88
          )[2-9]\d{6}
        </nationalNumberPattern>
      </tollFree>
      <premiumRate>
        <possibleLengths national=""10""/>
        <exampleNumber>9002345678</exampleNumber>
        <nationalNumberPattern>900[2-9]\d{6}</nationalNumberPattern>
      </premiumRate>
      <!-- https://www.nationalnanpa.com/number_resource_info/5XX_codes.html -->
      <personalNumber>
        <possibleLengths national=""10""/>
        <exampleNumber>5002345678</exampleNumber>
        <nationalNumberPattern>
          52(?:
            3(?:
              [2-46-9][02-9]\d|
              5(?:
                [02-46-9]\d|
                5[0-46-9]
              )
            )|
            4(?:
              [2-478][02-9]\d|
              5(?:
                [034]\d|
                2[024-9]|
                5[0-46-9]
              )|
              6(?:
                0[1-9]|
                [2-9]\d
              )|
              9(?:
                [05-9]\d|
                2[0-5]|
                49
              )
            )
          )\d{4}|
          52[34][2-9]1[02-9]\d{4}|
          5(?:
            00|
            2[125-9]|
            3[23]|
            44|
            66|
";
   "            77|
            88
          )[2-9]\d{6}
        </nationalNumberPattern>
      </personalNumber>
    </territory>"];
  ["

    <!-- Uruguay (UY) -->
    <!-- International long-distance providers can be dialled by dialling 01 followed by a carrier
         code JK, where J = [3-9] and K is any digit. -->
    <!-- http://www.itu.int/oth/T02020000E0/en -->
    <!-- http://www.ursec.gub.uy -->
    <!-- http://en.wikipedia.org/wiki/Telephone_numbers_in_Uruguay -->
    <territory id=""UY"" countryCode=""598"" preferredInternationalPrefix=""00""
               internationalPrefix=""0(?:0|1[3-9]\d)"" nationalPrefix=""0"" preferredExtnPrefix="" int. "">
      <availableFormats>
        <numberFormat pattern=""(\d{4,5})"">
          <leadingDigits>21</leadingDigits>
          <format>$1</format>
        </numberFormat>
        <!-- 6-7 digit toll free numbers -->
        <numberFormat pattern=""(\d{3})(\d{3,4})"">
          <leadingDigits>0</leadingDigits>
          <format>$1 $2</format>
        </numberFormat>
        <numberFormat pattern=""(\d{3})(\d{4})"" nationalPrefixFormattingRule=""$NP$FG"">
          <leadingDigits>
            [49]0|
            8
          </leadingDigits>
          <format>$1 $2</format>
        </numberFormat>
        <!-- Including the national prefix here since URSEC does when formatting these. -->
        <numberFormat pattern=""(\d{2})(\d{3})(\d{3})"" nationalPrefixFormattingRule=""$NP$FG"">
          <leadingDigits>9</leadingDigits>
          <format>$1 $2 $3</format>
        </numberFormat>
        <!-- Following paginasamarillas.com.uy formatting. -->
        <numberFormat pattern=""(\d{4})(\d{4})"">
          <leadingDigits>[124]</leadingDigits>
          <format>$1 $2</format>
        </numberFormat>
        <!-- 8-10 digit toll free numbers -->
        <numberFormat pattern=""(\d{3})(\d{3})(\d{2,4})"">
          <leadingDigits>0</leadingDigits>
          <format>$1 $2 $3</format>
        </numberFormat>
        <!-- 11-13 digit toll free numbers -->
        <numberFormat pattern=""(\d{3})(\d{3})(\d{3})(\d{2,4})"">
          <leadingDigits>0</leadingDigits>
          <format>$1 $2 $3 $4</format>
";
   "        </numberFormat>
      </availableFormats>
      <generalDesc>
        <nationalNumberPattern>
          0004\d{2,9}|
          [1249]\d{7}|
          2\d{3,4}|
          (?:
            [49]\d|
            80
          )\d{5}
        </nationalNumberPattern>
      </generalDesc>
      <!-- Prefix 1770 and 1987 are added based on online numbers. -->
      <fixedLine>
        <possibleLengths national=""8"" localOnly=""7""/>
        <exampleNumber>21231234</exampleNumber>
        <nationalNumberPattern>
          (?:
            1(?:
              770|
              9(?:
                20|
                [89]7
              )
            )|
            (?:
              2\d|
              4[2-7]
            )\d\d
          )\d{4}
        </nationalNumberPattern>
      </fixedLine>
      <mobile>
        <possibleLengths national=""8""/>
        <exampleNumber>94231234</exampleNumber>
        <nationalNumberPattern>9[1-9]\d{6}</nationalNumberPattern>
      </mobile>
      <tollFree>
        <possibleLengths national=""[6-13]""/>
        <exampleNumber>8001234</exampleNumber>
        <nationalNumberPattern>
          0004\d{2,9}|
          (?:
            405|
            80[05]
          )\d{4}
        </nationalNumberPattern>
      </tollFree>
      <premiumRate>
        <possibleLengths national=""7""/>
        <exampleNumber>9001234</exampleNumber>
        <nationalNumberPattern>90[0-8]\d{4}</nationalNumberPattern>
      </premiumRate>
      <uan>
        <possibleLengths national=""4,5""/>
        <exampleNumber>21123</exampleNumber>
        <nationalNumberPattern>21\d{2,3}</nationalNumberPattern>
      </uan>
    </territory>"];
  ["

    <!-- Uzbekistan (UZ) -->
    <!-- No tollFree or premiumRate information can be found. -->
    <!-- http://www.ttts.uz/eng/telephone_codes/codes_uzb_eng -->
    <!-- http://www.itu.int/oth/T02020000E1/en -->
    <!-- The Trunk / National Prefix '0' or '8' is no longer used.  -->
    <!-- The International Prefix / IDD is changed to '00' fr";
   "om '8~10' -->
    <territory id=""UZ"" countryCode=""998"" internationalPrefix=""00"">
      <availableFormats>
        <numberFormat pattern=""(\d{2})(\d{3})(\d{2})(\d{2})"">
          <leadingDigits>[235-9]</leadingDigits>
          <format>$1 $2 $3 $4</format>
        </numberFormat>
      </availableFormats>
      <generalDesc>
        <nationalNumberPattern>
          (?:
            20|
            33|
            [5-9]\d
          )\d{7}
        </nationalNumberPattern>
      </generalDesc>
      <!-- Adding 711 fr";
   "om numbers found online, such as the US embassy, and 6922, which seems to
           be used in Namangan. -->
      <fixedLine>
        <possibleLengths national=""9""/>
        <exampleNumber>669050123</exampleNumber>
        <nationalNumberPattern>
          (?:
            55\d\d|
            6(?:
              1(?:
                22|
                3[124]|
                4[1-4]|
                5[1-3578]|
                64
              )|
              2(?:
                22|
                3[0-57-9]|
                41
              )|
              5(?:
                22|
                3[3-7]|
                5[024-8]
              )|
              [69]\d\d|
              7(?:
                [23]\d|
                7[69]
              )
            )|
            7(?:
              0(?:
                5[4-9]|
                6[0146]|
                7[124-6]|
                9[135-8]
              )|
              [168]\d\d|
              2(?:
                22|
                3[13-57-9]|
                4[1-3579]|
                5[14]
              )|
              3(?:
                2\d|
                3[1578]|
";
   "                4[1-35-7]|
                5[1-57]|
                61
              )|
              4(?:
                2\d|
                3[1-579]|
                7[1-79]
              )|
              5(?:
                22|
                5[1-9]|
                6[1457]
              )|
              9(?:
                22|
                5[1-9]
              )
            )
          )\d{5}
        </nationalNumberPattern>
      </fixedLine>
      <!-- Adding 9[45] as suggested by http://www.ucell.uz/en/for_subscribers/how_to_call.html
           Adding other prefixes fr";
   "om http://www.weltvorwahlen.de/99861353.html, and any other
           prefixes Tyntec has a carrier mapped to. Adding 5550[013] & 5590 based on user report. -->
      <mobile>
        <possibleLengths national=""9""/>
        <exampleNumber>912345678</exampleNumber>
        <nationalNumberPattern>
          (?:
            (?:
              [25]0|
              33|
              8[078]|
              9[0-57-9]
            )\d{3}|
            6(?:
              1(?:
                2(?:
                  2[01]|
                  98
                )|
                35[0-4]|
                50\d|
                61[23]|
                7(?:
                  [01][017]|
                  4\d|
                  55|
                  9[5-9]
                )
              )|
              2(?:
                (?:
                  11|
                  7\d
                )\d|
                2(?:
                  [12]1|
                  9[01379]
                )|
                5(?:
                  [126]\d|
                  3[0-4]
                )
              )|
              5(?:
                19[01]|
                2(?:
                  27|
                  9[26]
                )|
                (?:
                  30|
                  59|
                  7\d
                )\d
              )|
              6(?:
                2(?:
                  1[5-9]|
                  2[0367]|
";
   "                  38|
                  41|
                  52|
                  60
                )|
                (?:
                  3[79]|
                  9[0-3]
                )\d|
                4(?:
                  56|
                  83
                )|
                7(?:
                  [07]\d|
                  1[017]|
                  3[07]|
                  4[047]|
                  5[057]|
                  67|
                  8[0178]|
                  9[79]
                )
              )|
              7(?:
                2(?:
                  24|
                  3[237]|
                  4[5-9]|
                  7[15-8]
                )|
                5(?:
                  7[12]|
                  8[0589]
                )|
                7(?:
                  0\d|
                  [39][07]
                )|
                9(?:
                  0\d|
                  7[079]
                )
              )
            )|
            7(?:
              [07]\d{3}|
              2(?:
                2(?:
                  2[79]|
                  95
                )|
                3(?:
                  2[5-9]|
                  6[0-6]
                )|
                57\d|
                7(?:
                  0\d|
                  1[17]|
                  2[27]|
                  3[37]|
                  44|
                  5[057]|
                  66|
                  88
                )
              )|
              3(?:
                2(?:
                  1[0-6]|
                  21|
                  3[469]|
                  7[159]
                )|
                (?:
                  33|
                  9[4-6]
                )\d|
                5(?:
                  0[0-4]|
                  5[579]|
                  9\d
                )|
                7(?:
                  [0-3579]\d|
                  4[0467]|
                  6[67]|
                  8[078]
                )
";
   "              )|
              4(?:
                2(?:
                  29|
                  5[0257]|
                  6[0-7]|
                  7[1-57]
                )|
                5(?:
                  1[0-4]|
                  8\d|
                  9[5-9]
                )|
                7(?:
                  0\d|
                  1[024589]|
                  2[0-27]|
                  3[0137]|
                  [46][07]|
                  5[01]|
                  7[5-9]|
                  9[079]
                )|
                9(?:
                  7[015-9]|
                  [89]\d
                )
              )|
              5(?:
                112|
                2(?:
                  0\d|
                  2[29]|
                  [49]4
                )|
                3[1568]\d|
                52[6-9]|
                7(?:
                  0[01578]|
                  1[017]|
                  [23]7|
                  4[047]|
                  [5-7]\d|
                  8[78]|
                  9[079]
                )
              )|
              9(?:
                22[128]|
                3(?:
                  2[0-4]|
                  7\d
                )|
                57[02569]|
                7(?:
                  2[05-9]|
                  3[37]|
                  4\d|
                  60|
                  7[2579]|
                  87|
                  9[07]
                )
              )
            )
          )\d{4}
        </nationalNumberPattern>
      </mobile>
    </territory>"];
  ["

    <!-- Vatican City (VA) -->
    <!-- Calling code and formatting shared with 'IT' -->
    <!-- Vatican City is assigned country code 379. However, Vatican City is still reached
         via the Italian numbering plan. Telephone numbers in Vatican City are integrated into
         the Italian telephone numbering plan. Telephone numbers in the Vatican City are similar
         to telephone numbers in Rome, with ""698"" following the ""06"" for Rome.
         A Vatican telephone number is in the form of 06 698x xxxx. -->
    <!-- http://en.wikipedia.org/wiki/Telephone_numbers_in_Vatican_City -->
    <territory id=""VA"" countryCode=""39"" leadingDigits=""06698"" internationalPrefix=""00""
               mobileNumberPortableRegion=""true"">
      <generalDesc>
        <nationalNumberPattern>
          0\d{5,10}|
          3[0-8]\d{7,10}|
          55\d{8}|
          8\d{5}(?:
            \d{2,4}
          )?|
          (?:
            1\d|
            39
          )\d{7,8}
        </nationalNumberPattern>
      </generalDesc>
      <!-- As per Wikipedia only 10 digit 06 698 is assigned to Vatican City. However in reality we
           were able to dial lesser length number that belongs to Vatican City. So added all the
           lengths as mentioned in ITU Doc. -->
      <fixedLine>
        <possibleLengths national=""[6-11]""/>
        <exampleNumber>0669812345</exampleNumber>
        <nationalNumberPattern>06698\d{1,6}</nationalNumberPattern>
      </fixedLine>
      <!-- Mobile, toll free, premium rate, shared cost, personal number and VOIP copied fr";
   "om Italy. -->
      <!-- According to wikipedia, TIM mobile numbers can be 9 digits long, but all others are 10
           digits long. However, a user reported the existence of new 11 digit long numbers for
           TIM with the prefix 33X, so this is supported also. -->
      <mobile>
        <possibleLengths national=""9,10""/>
        <exampleNumber>3123456789</exampleNumber>
        <nationalNumberPattern>
          3[1-9]\d{8}|
";
   "          3[2-9]\d{7}
        </nationalNumberPattern>
      </mobile>
      <tollFree>
        <possibleLengths national=""6,9""/>
        <exampleNumber>800123456</exampleNumber>
        <nationalNumberPattern>
          80(?:
            0\d{3}|
            3
          )\d{3}
        </nationalNumberPattern>
      </tollFree>
      <!-- Adding 0878 numbers, as per
           http://www.aduc.it/notizia/polizia+mette+allerta+sul+numero+0878_73136.php. Other
           premium prefixes are mentioned here:
           http://www.dirittodellinformatica.it/news/telefonia/agcom-blocco-permanente-prefissi-144-166-892-899-20080520241.html -->
      <premiumRate>
        <possibleLengths national=""6,[8-10]""/>
        <exampleNumber>899123456</exampleNumber>
        <nationalNumberPattern>
          (?:
            0878\d{3}|
            89(?:
              2\d|
              3[04]|
              4(?:
                [0-4]|
                [5-9]\d\d
              )|
              5[0-4]
            )
          )\d\d|
          (?:
            1(?:
              44|
              6[346]
            )|
            89(?:
              38|
              5[5-9]|
              9
            )
          )\d{6}
        </nationalNumberPattern>
      </premiumRate>
      <sharedCost>
        <possibleLengths national=""6,9""/>
        <exampleNumber>848123456</exampleNumber>
        <nationalNumberPattern>
          84(?:
            [08]\d{3}|
            [17]
          )\d{3}
        </nationalNumberPattern>
      </sharedCost>
      <personalNumber>
        <possibleLengths national=""9,10""/>
        <exampleNumber>1781234567</exampleNumber>
        <nationalNumberPattern>
          1(?:
            78\d|
            99
          )\d{6}
        </nationalNumberPattern>
      </personalNumber>
      <voip>
        <possibleLengths national=""10""/>
        <exampleNumber>5512345678</exampleNumber>
        <nationalNumberPattern>55\d{8}</nationalNumberPattern>
      </voip>
      <voicemail>
";
   "        <possibleLengths national=""11,12""/>
        <exampleNumber>33101234501</exampleNumber>
        <nationalNumberPattern>3[2-8]\d{9,10}</nationalNumberPattern>
      </voicemail>
    </territory>"];
  ["

    <!-- St. Vincent & Grenadines (VC) -->
    <!-- Calling code and formatting shared with 'US' -->
    <!-- http://www.itu.int/oth/T02020000B3/en -->
    <territory id=""VC"" countryCode=""1"" leadingDigits=""784"" internationalPrefix=""011""
               nationalPrefix=""1"" nationalPrefixForParsing=""([2-7]\d{6})$|1""
               nationalPrefixTransformRule=""784$1"" mobileNumberPortableRegion=""true"">
      <generalDesc>
        <nationalNumberPattern>
          (?:
            [58]\d\d|
            784|
            900
          )\d{7}
        </nationalNumberPattern>
      </generalDesc>
      <!-- For 570, 571 and 572 prefixes, we believe the ITU doc incorrectly listed them to be under
           area code 758, which should be 784. -->
      <fixedLine>
        <possibleLengths national=""10"" localOnly=""7""/>
        <exampleNumber>7842661234</exampleNumber>
        <nationalNumberPattern>
          784(?:
            266|
            3(?:
              6[6-9]|
              7\d|
              8[0-6]
            )|
            4(?:
              38|
              5[0-36-8]|
              8[0-8]
            )|
            5(?:
              55|
              7[0-2]|
              93
            )|
            638|
            784
          )\d{4}
        </nationalNumberPattern>
      </fixedLine>
      <!-- Supported 49[67] XXXX mobile ranges based on user report. -->
      <mobile>
        <possibleLengths national=""10"" localOnly=""7""/>
        <exampleNumber>7844301234</exampleNumber>
        <nationalNumberPattern>
          784(?:
            4(?:
              3[0-5]|
              5[45]|
              89|
              9[0-8]
            )|
            5(?:
              2[6-9]|
              3[0-4]
            )|
            720
          )\d{4}
        </nationalNumberPattern>
      </mobile>
      <tollFree>
        <possibleLengths national=""10""/>
        <exampleNumber>8002345678</exampleNumber>
        <nationalNumberPattern>
          8(?:
            00|
            33|
";
   "            44|
            55|
            66|
            77|
            88
          )[2-9]\d{6}
        </nationalNumberPattern>
      </tollFree>
      <premiumRate>
        <possibleLengths national=""10""/>
        <exampleNumber>9002345678</exampleNumber>
        <nationalNumberPattern>900[2-9]\d{6}</nationalNumberPattern>
      </premiumRate>
      <!-- https://www.nationalnanpa.com/number_resource_info/5XX_codes.html -->
      <personalNumber>
        <possibleLengths national=""10""/>
        <exampleNumber>5002345678</exampleNumber>
        <nationalNumberPattern>
          52(?:
            3(?:
              [2-46-9][02-9]\d|
              5(?:
                [02-46-9]\d|
                5[0-46-9]
              )
            )|
            4(?:
              [2-478][02-9]\d|
              5(?:
                [034]\d|
                2[024-9]|
                5[0-46-9]
              )|
              6(?:
                0[1-9]|
                [2-9]\d
              )|
              9(?:
                [05-9]\d|
                2[0-5]|
                49
              )
            )
          )\d{4}|
          52[34][2-9]1[02-9]\d{4}|
          5(?:
            00|
            2[125-9]|
            3[23]|
            44|
            66|
            77|
            88
          )[2-9]\d{6}
        </nationalNumberPattern>
      </personalNumber>
      <voip>
        <possibleLengths national=""10"" localOnly=""7""/>
        <exampleNumber>7845101234</exampleNumber>
        <nationalNumberPattern>78451[0-2]\d{4}</nationalNumberPattern>
      </voip>
    </territory>"];
  ["

    <!-- Venezuela (VE) -->
    <!-- 1XX specifies a particular carrier to route a call to, but none of these have been
         implemented. -->
    <!-- http://www.itu.int/oth/T02020000E3/en -->
    <!-- http://en.wikipedia.org/wiki/+58 -->
    <territory id=""VE"" countryCode=""58"" internationalPrefix=""00"" nationalPrefix=""0"">
      <availableFormats>
        <numberFormat pattern=""(\d{3})(\d{7})"" nationalPrefixFormattingRule=""$NP$FG""
                      carrierCodeFormattingRule=""$CC $FG"">
          <leadingDigits>[24-689]</leadingDigits>
          <format>$1-$2</format>
        </numberFormat>
      </availableFormats>
      <generalDesc>
        <nationalNumberPattern>
          [68]00\d{7}|
          (?:
            [24]\d|
            [59]0
          )\d{8}
        </nationalNumberPattern>
      </generalDesc>
      <!-- Including region-free 500 calls here, since these are treated as lo";
   "cal calls. Wikipedia
           mentions these as 5XX, but online examples that can be found are seemingly restricted
           to 50[01]. -->
      <fixedLine>
        <possibleLengths national=""10"" localOnly=""7""/>
        <exampleNumber>2121234567</exampleNumber>
        <nationalNumberPattern>
          (?:
            2(?:
              12|
              3[457-9]|
              [467]\d|
              [58][1-9]|
              9[1-6]
            )|
            [4-6]00
          )\d{7}
        </nationalNumberPattern>
      </fixedLine>
      <mobile>
        <possibleLengths national=""10""/>
        <exampleNumber>4121234567</exampleNumber>
        <nationalNumberPattern>
          4(?:
            1[24-8]|
            2[246]
          )\d{7}
        </nationalNumberPattern>
      </mobile>
      <tollFree>
        <possibleLengths national=""10""/>
        <exampleNumber>8001234567</exampleNumber>
        <nationalNumberPattern>800\d{7}</nationalNumberPattern>
      </tollFree>
      <premiumRate>
        <possibleLengths national=""10""/>
        <exampleNumber>9001234567</exampleNumber>
";
   "        <nationalNumberPattern>90[01]\d{7}</nationalNumberPattern>
      </premiumRate>
      <uan>
        <possibleLengths national=""10"" localOnly=""7""/>
        <exampleNumber>5010123456</exampleNumber>
        <nationalNumberPattern>501\d{7}</nationalNumberPattern>
      </uan>
    </territory>"];
  ["

    <!-- British Virgin Islands (VG) -->
    <!-- Calling code and formatting shared with 'US' -->
    <!-- http://www.itu.int/oth/T020200001E/en -->
    <territory id=""VG"" countryCode=""1"" leadingDigits=""284"" internationalPrefix=""011""
               nationalPrefix=""1"" nationalPrefixForParsing=""([2-578]\d{6})$|1""
               nationalPrefixTransformRule=""284$1"" mobileNumberPortableRegion=""true"">
      <generalDesc>
        <nationalNumberPattern>
          (?:
            284|
            [58]\d\d|
            900
          )\d{7}
        </nationalNumberPattern>
      </generalDesc>
      <!-- No data on central office codes can be found on the nanpa.com website. The codes 422
           and 774 have been added fr";
   "om numbers found in the white pages. -->
      <fixedLine>
        <possibleLengths national=""10"" localOnly=""7""/>
        <exampleNumber>2842291234</exampleNumber>
        <nationalNumberPattern>
          284(?:
            229|
            4(?:
              22|
              9[45]
            )|
            774|
            8(?:
              52|
              6[459]
            )
          )\d{4}
        </nationalNumberPattern>
      </fixedLine>
      <!-- No data on central office codes can be found on the nanpa.com website. The codes 446
           and 54[57] have been added fr";
   "om numbers found in the white pages. -->
      <mobile>
        <possibleLengths national=""10"" localOnly=""7""/>
        <exampleNumber>2843001234</exampleNumber>
        <nationalNumberPattern>
          284(?:
            245|
            3(?:
              0[0-3]|
              4[0-7]|
              68|
              9[34]
            )|
            4(?:
              4[0-6]|
              68|
              9[69]
            )|
            5(?:
              4[0-7]|
              68|
              9[69]
            )
          )\d{4}
        </nationalNumberPattern>
      </mobile>
      <tollFree>
        <possibleLengths national=""10""/>
        <exampleNumber>8002345678</exampleNumber>
";
   "        <nationalNumberPattern>
          8(?:
            00|
            33|
            44|
            55|
            66|
            77|
            88
          )[2-9]\d{6}
        </nationalNumberPattern>
      </tollFree>
      <premiumRate>
        <possibleLengths national=""10""/>
        <exampleNumber>9002345678</exampleNumber>
        <nationalNumberPattern>900[2-9]\d{6}</nationalNumberPattern>
      </premiumRate>
      <!-- https://www.nationalnanpa.com/number_resource_info/5XX_codes.html -->
      <personalNumber>
        <possibleLengths national=""10""/>
        <exampleNumber>5002345678</exampleNumber>
        <nationalNumberPattern>
          52(?:
            3(?:
              [2-46-9][02-9]\d|
              5(?:
                [02-46-9]\d|
                5[0-46-9]
              )
            )|
            4(?:
              [2-478][02-9]\d|
              5(?:
                [034]\d|
                2[024-9]|
                5[0-46-9]
              )|
              6(?:
                0[1-9]|
                [2-9]\d
              )|
              9(?:
                [05-9]\d|
                2[0-5]|
                49
              )
            )
          )\d{4}|
          52[34][2-9]1[02-9]\d{4}|
          5(?:
            00|
            2[125-9]|
            3[23]|
            44|
            66|
            77|
            88
          )[2-9]\d{6}
        </nationalNumberPattern>
      </personalNumber>
    </territory>"];
  ["

    <!-- U.S. Virgin Islands (VI) -->
    <!-- Calling code and formatting shared with 'US' -->
    <!-- http://www.itu.int/oth/T02020000DF/en -->
    <territory id=""VI"" countryCode=""1"" leadingDigits=""340"" internationalPrefix=""011""
               nationalPrefix=""1"" nationalPrefixForParsing=""([2-9]\d{6})$|1""
               nationalPrefixTransformRule=""340$1"">
      <generalDesc>
        <nationalNumberPattern>
          [58]\d{9}|
          (?:
            34|
            90
          )0\d{7}
        </nationalNumberPattern>
      </generalDesc>
      <!-- The ITU document seems a bit out-of-date so extra prefixes based on numbers in the
           yellow pages have been added, and the list of exchanges found on
           http://www.allareacodes.com/340 -->
      <fixedLine>
        <possibleLengths national=""10"" localOnly=""7""/>
        <exampleNumber>3406421234</exampleNumber>
        <nationalNumberPattern>
          340(?:
            2(?:
              0\d|
              10|
              2[06-8]|
              4[49]|
              77
            )|
            3(?:
              32|
              44
            )|
            4(?:
              2[23]|
              44|
              7[34]|
              89
            )|
            5(?:
              1[34]|
              55
            )|
            6(?:
              2[56]|
              4[23]|
              77|
              9[023]
            )|
            7(?:
              1[2-57-9]|
              2[57]|
              7\d
            )|
            884|
            998
          )\d{4}
        </nationalNumberPattern>
      </fixedLine>
      <mobile>
        <possibleLengths national=""10"" localOnly=""7""/>
        <exampleNumber>3406421234</exampleNumber>
        <nationalNumberPattern>
          340(?:
            2(?:
              0\d|
              10|
              2[06-8]|
              4[49]|
              77
            )|
            3(?:
              32|
              44
            )|
            4(?:
";
   "              2[23]|
              44|
              7[34]|
              89
            )|
            5(?:
              1[34]|
              55
            )|
            6(?:
              2[56]|
              4[23]|
              77|
              9[023]
            )|
            7(?:
              1[2-57-9]|
              2[57]|
              7\d
            )|
            884|
            998
          )\d{4}
        </nationalNumberPattern>
      </mobile>
      <tollFree>
        <possibleLengths national=""10""/>
        <exampleNumber>8002345678</exampleNumber>
        <nationalNumberPattern>
          8(?:
            00|
            33|
            44|
            55|
            66|
            77|
            88
          )[2-9]\d{6}
        </nationalNumberPattern>
      </tollFree>
      <premiumRate>
        <possibleLengths national=""10""/>
        <exampleNumber>9002345678</exampleNumber>
        <nationalNumberPattern>900[2-9]\d{6}</nationalNumberPattern>
      </premiumRate>
      <!-- https://www.nationalnanpa.com/number_resource_info/5XX_codes.html -->
      <personalNumber>
        <possibleLengths national=""10""/>
        <exampleNumber>5002345678</exampleNumber>
        <nationalNumberPattern>
          52(?:
            3(?:
              [2-46-9][02-9]\d|
              5(?:
                [02-46-9]\d|
                5[0-46-9]
              )
            )|
            4(?:
              [2-478][02-9]\d|
              5(?:
                [034]\d|
                2[024-9]|
                5[0-46-9]
              )|
              6(?:
                0[1-9]|
                [2-9]\d
              )|
              9(?:
                [05-9]\d|
                2[0-5]|
                49
              )
            )
          )\d{4}|
          52[34][2-9]1[02-9]\d{4}|
          5(?:
            00|
            2[125-9]|
            3[23]|
            44|
            66|
            77|
            88
          )[2-9]\d{6}
        </nationalNumberPattern>
";
   "      </personalNumber>
    </territory>"];
  ["

    <!-- Vietnam (VN) -->
    <!-- http://www.itu.int/oth/T02020000E4/en -->
    <!-- http://en.wikipedia.org/wiki/%2B84 -->
    <territory id=""VN"" countryCode=""84"" internationalPrefix=""00"" nationalPrefix=""0"">
      <availableFormats>
        <!-- National only UAN -->
        <numberFormat pattern=""(\d{3})(\d{4})"" nationalPrefixFormattingRule=""$NP$FG""
                      nationalPrefixOptionalWhenFormatting=""true"">
          <leadingDigits>[17]99</leadingDigits>
          <format>$1 $2</format>
          <intlFormat>NA</intlFormat>
        </numberFormat>
        <!-- National only UAN -->
        <numberFormat pattern=""(\d{3})(\d{4,5})"" nationalPrefixFormattingRule=""$NP$FG""
                      nationalPrefixOptionalWhenFormatting=""true"">
          <leadingDigits>69</leadingDigits>
          <format>$1 $2</format>
          <intlFormat>NA</intlFormat>
        </numberFormat>
        <!-- Non-geographic fixed line (toll free / standard rate) -->
        <numberFormat pattern=""(\d{4})(\d{4,6})"" nationalPrefixOptionalWhenFormatting=""true"">
          <leadingDigits>
            1(?:
              2[02]|
              [89]
            )
          </leadingDigits>
          <format>$1 $2</format>
        </numberFormat>
        <!-- Format for old mobile ranges and VOIP. -->
        <numberFormat pattern=""(\d{2})(\d{3})(\d{2})(\d{2})"" nationalPrefixFormattingRule=""$NP$FG""
                      nationalPrefixOptionalWhenFormatting=""true"">
          <leadingDigits>
            1[26]|
            6
          </leadingDigits>
          <format>$1 $2 $3 $4</format>
        </numberFormat>
        <numberFormat pattern=""(\d{3})(\d{3})(\d{3})"" nationalPrefixFormattingRule=""$NP$FG""
                      nationalPrefixOptionalWhenFormatting=""true"">
          <leadingDigits>[357-9]</leadingDigits>
          <format>$1 $2 $3</format>
        </numberFormat>
        <!-- 2-digit area codes (big cities) -->
        <numberFormat pattern=""(\d{2})(\d{4})(\d{4})"" nationalPrefixFormattingRule=""$NP$FG""
";
   "                      nationalPrefixOptionalWhenFormatting=""true"">
          <leadingDigits>2[48]</leadingDigits>
          <format>$1 $2 $3</format>
        </numberFormat>
        <!-- 3-digit area codes -->
        <numberFormat pattern=""(\d{3})(\d{4})(\d{3})"" nationalPrefixFormattingRule=""$NP$FG""
                      nationalPrefixOptionalWhenFormatting=""true"">
          <leadingDigits>2</leadingDigits>
          <format>$1 $2 $3</format>
        </numberFormat>
      </availableFormats>
      <generalDesc>
        <nationalNumberPattern>
          [12]\d{9}|
          [135-9]\d{8}|
          [16]\d{6,7}|
          7\d{6}
        </nationalNumberPattern>
      </generalDesc>
      <noInternationalDialling>
        <possibleLengths national=""7,8""/>
        <nationalNumberPattern>
          [17]99\d{4}|
          69\d{5,6}
        </nationalNumberPattern>
      </noInternationalDialling>
      <!-- While 24 and 28 are the new area codes for Hanoi and Ho Chi Minh respectively, currently
           only 24[2-8] and 28[2-7] are in use. Reporter mentioned prefix 866 is Mobile but was
           unable to receive SMS so for now supporting in both Mobile and Fixed-line. Range 289 is
           added based on user report. -->
      <fixedLine>
        <possibleLengths national=""10""/>
        <exampleNumber>2101234567</exampleNumber>
        <nationalNumberPattern>
          2(?:
            0[3-9]|
            1[0-689]|
            2[0-25-9]|
            [38][2-9]|
            4[2-8]|
            5[124-9]|
            6[0-39]|
            7[0-7]|
            9[0-4679]
          )\d{7}
        </nationalNumberPattern>
      </fixedLine>
      <!-- For the 8\d{8} range, we have clearer & more recent information available fr";
   "om IR.21
           docs than fr";
   "om ITU. Thus we consider 88x, 868, 89[89] as mobile ranges. 86[259] has been
           added to Mobile as per a user report. -->
      <mobile>
        <possibleLengths national=""9""/>
        <exampleNumber>912345678</exampleNumber>
";
   "        <nationalNumberPattern>
          121[0-3]\d{5}|
          (?:
            160|
            (?:
              3\d|
              7[06-9]
            )\d|
            5(?:
              [1689]\d|
              2[238]|
              59
            )|
            8(?:
              [1-8]\d|
              9[6-9]
            )|
            9(?:
              [0-8]\d|
              9[013-9]
            )
          )\d{6}
        </nationalNumberPattern>
      </mobile>
      <!-- As per the user and update fr";
   "om carrier it seems that numbers starting with 1800 are
           renumbered to 1228. Because we don't have complete update,supporting both the ranges
           at present.
           Prefix 120[13] is toll free number and is diallable fr";
   "om Orange Business Services based
           on user report. As we do not have official document mentioning the cost of the range,
           we have added it here for now. -->
      <tollFree>
        <possibleLengths national=""[8-10]""/>
        <exampleNumber>1800123456</exampleNumber>
        <nationalNumberPattern>
          1800\d{4,6}|
          12(?:
            0[13]|
            28
          )\d{4}
        </nationalNumberPattern>
      </tollFree>
      <premiumRate>
        <possibleLengths national=""[8-10]""/>
        <exampleNumber>1900123456</exampleNumber>
        <nationalNumberPattern>1900\d{4,6}</nationalNumberPattern>
      </premiumRate>
      <!-- 672 is a VSAT numbering range as per ITU doc. -->
      <voip>
        <possibleLengths national=""9""/>
        <exampleNumber>672012345</exampleNumber>
        <nationalNumberPattern>672\d{6}</nationalNumberPattern>
      </voip>
      <!-- These in";
   "clude non-geographic fixed numbers, such as for government ministries. While
           listed as ""private networks"", they may actually be callable fr";
   "om within Vietnam. (They
           are ""private"" in the sense that ordinary people could not be assigned these numbers.) -->
      <uan>
        <possibleLengths national=""7,8""/>
";
   "        <exampleNumber>1992000</exampleNumber>
        <nationalNumberPattern>
          [17]99\d{4}|
          69\d{5,6}
        </nationalNumberPattern>
      </uan>
    </territory>"];
  ["

    <!-- Vanuatu (VU) -->
    <!-- http://www.itu.int/oth/T02020000E2/en -->
    <!-- Should be formatted in one block, apart fr";
   "om the mobile numbers. -->
    <territory id=""VU"" countryCode=""678"" internationalPrefix=""00"">
      <availableFormats>
        <numberFormat pattern=""(\d{3})(\d{4})"">
          <leadingDigits>[57-9]</leadingDigits>
          <format>$1 $2</format>
        </numberFormat>
      </availableFormats>
      <generalDesc>
        <nationalNumberPattern>
          [57-9]\d{6}|
          (?:
            [238]\d|
            48
          )\d{3}
        </nationalNumberPattern>
      </generalDesc>
      <fixedLine>
        <possibleLengths national=""5""/>
        <exampleNumber>22123</exampleNumber>
        <nationalNumberPattern>
          (?:
            38[0-8]|
            48[4-9]
          )\d\d|
          (?:
            2[02-9]|
            3[4-7]|
            88
          )\d{3}
        </nationalNumberPattern>
      </fixedLine>
      <mobile>
        <possibleLengths national=""7""/>
        <exampleNumber>5912345</exampleNumber>
        <nationalNumberPattern>
          (?:
            [58]\d|
            7[0-7]
          )\d{5}
        </nationalNumberPattern>
      </mobile>
      <tollFree>
        <possibleLengths national=""5""/>
        <exampleNumber>81123</exampleNumber>
        <nationalNumberPattern>81[18]\d\d</nationalNumberPattern>
      </tollFree>
      <voip>
        <possibleLengths national=""7""/>
        <exampleNumber>9010123</exampleNumber>
        <nationalNumberPattern>
          9(?:
            0[1-9]|
            1[01]
          )\d{4}
        </nationalNumberPattern>
      </voip>
      <!-- Using this for non-geographical numbers, since they have not been clearly de";
   "fined, and
           for government fixed-line numbers. -->
      <uan>
        <possibleLengths national=""5,7""/>
        <exampleNumber>30123</exampleNumber>
        <nationalNumberPattern>
          (?:
            3[03]|
            900\d
          )\d{3}
";
   "        </nationalNumberPattern>
      </uan>
    </territory>"];
  ["

    <!-- Wallis & Futuna (WF) -->
    <!-- http://www.itu.int/oth/T02020000E6/en -->
    <territory id=""WF"" countryCode=""681"" internationalPrefix=""00"">
      <availableFormats>
        <numberFormat pattern=""(\d{2})(\d{2})(\d{2})"">
          <leadingDigits>[47-9]</leadingDigits>
          <format>$1 $2 $3</format>
        </numberFormat>
        <numberFormat pattern=""(\d{3})(\d{2})(\d{2})(\d{2})"">
          <leadingDigits>8</leadingDigits>
          <format>$1 $2 $3 $4</format>
        </numberFormat>
      </availableFormats>
      <generalDesc>
        <nationalNumberPattern>
          (?:
            40|
            72|
            8\d{4}
          )\d{4}|
          [89]\d{5}
        </nationalNumberPattern>
      </generalDesc>
      <!-- Web searching only finds examples with the 72 prefix but the ITU document states that
           50 and 68 are possible, so they are included here. -->
      <fixedLine>
        <possibleLengths national=""6""/>
        <exampleNumber>721234</exampleNumber>
        <nationalNumberPattern>72\d{4}</nationalNumberPattern>
      </fixedLine>
      <mobile>
        <possibleLengths national=""6""/>
        <exampleNumber>821234</exampleNumber>
        <nationalNumberPattern>
          (?:
            72|
            8[23]
          )\d{4}
        </nationalNumberPattern>
      </mobile>
      <!-- As per ARCEP, mainland France and overseas territories use 0800 to 0805 as Toll-free
           numbers. -->
      <tollFree>
        <possibleLengths national=""9""/>
        <exampleNumber>800012345</exampleNumber>
        <nationalNumberPattern>80[0-5]\d{6}</nationalNumberPattern>
      </tollFree>
      <voip>
        <possibleLengths national=""6""/>
        <exampleNumber>921234</exampleNumber>
        <nationalNumberPattern>9[23]\d{4}</nationalNumberPattern>
      </voip>
      <voicemail>
        <possibleLengths national=""6""/>
        <exampleNumber>401234</exampleNumber>
        <nationalNumberPattern>[48]0\d{4}</nationalNumberPattern>
";
   "      </voicemail>
    </territory>"];
  ["

    <!-- Samoa (WS) -->
    <!-- http://www.itu.int/oth/T02020000B4/en -->
    <territory id=""WS"" countryCode=""685"" internationalPrefix=""0"">
      <availableFormats>
        <numberFormat pattern=""(\d{5})"">
          <leadingDigits>
            [2-5]|
            6[1-9]
          </leadingDigits>
          <format>$1</format>
        </numberFormat>
        <numberFormat pattern=""(\d{3})(\d{3,7})"">
          <leadingDigits>[68]</leadingDigits>
          <format>$1 $2</format>
        </numberFormat>
        <numberFormat pattern=""(\d{2})(\d{5})"">
          <leadingDigits>7</leadingDigits>
          <format>$1 $2</format>
        </numberFormat>
      </availableFormats>
      <generalDesc>
        <nationalNumberPattern>
          (?:
            [2-6]|
            8\d{5}
          )\d{4}|
          [78]\d{6}|
          [68]\d{5}
        </nationalNumberPattern>
      </generalDesc>
      <fixedLine>
        <possibleLengths national=""5,6""/>
        <exampleNumber>22123</exampleNumber>
        <nationalNumberPattern>
          6[1-9]\d{3}|
          (?:
            [2-5]|
            60
          )\d{4}
        </nationalNumberPattern>
      </fixedLine>
      <!-- Under 89, only 8900000[0-2]xx + 8900000300 are assigned, and the operator seems to be
           the government. -->
      <mobile>
        <possibleLengths national=""7,10""/>
        <exampleNumber>7212345</exampleNumber>
        <nationalNumberPattern>
          (?:
            7[1-35-8]|
            8(?:
              [3-7]|
              9\d{3}
            )
          )\d{5}
        </nationalNumberPattern>
      </mobile>
      <!-- The 800 number series is new, and is used by companies such as the ANZ bank in Samoa to
           provide 24 hour eMerchant support. It is marked as ""Customized Services"" in the plan
           for now, so may be also used for other purposes than toll free, but until we have
           further evidence of these we will keep it as toll free. -->
      <tollFree>
        <possibleLengths national=""6""/>
";
   "        <exampleNumber>800123</exampleNumber>
        <nationalNumberPattern>800\d{3}</nationalNumberPattern>
      </tollFree>
    </territory>"];
  ["

    <!-- Kosovo (XK) -->
    <!-- https://www.itu.int/oth/T02020000FD/en -->
    <!-- http://arkep-rks.org/?cid=1,50 -->
    <territory id=""XK"" countryCode=""383"" internationalPrefix=""00"" nationalPrefix=""0"">
      <availableFormats>
        <numberFormat pattern=""(\d{3})(\d{5})"" nationalPrefixFormattingRule=""$NP$FG"">
          <leadingDigits>[89]</leadingDigits>
          <format>$1 $2</format>
        </numberFormat>
        <numberFormat pattern=""(\d{2})(\d{3})(\d{3})"" nationalPrefixFormattingRule=""$NP$FG"">
          <leadingDigits>[2-4]</leadingDigits>
          <format>$1 $2 $3</format>
        </numberFormat>
        <numberFormat pattern=""(\d{3})(\d{3})(\d{3})"" nationalPrefixFormattingRule=""$NP$FG"">
          <leadingDigits>
            2|
            39
          </leadingDigits>
          <format>$1 $2 $3</format>
        </numberFormat>
        <numberFormat pattern=""(\d{2})(\d{7,10})"" nationalPrefixFormattingRule=""$NP$FG"">
          <leadingDigits>3</leadingDigits>
          <format>$1 $2</format>
        </numberFormat>
      </availableFormats>
      <generalDesc>
        <nationalNumberPattern>
          2\d{7,8}|
          3\d{7,11}|
          (?:
            4\d\d|
            [89]00
          )\d{5}
        </nationalNumberPattern>
      </generalDesc>
      <fixedLine>
        <possibleLengths national=""[8-12]""/>
        <exampleNumber>28012345</exampleNumber>
        <nationalNumberPattern>
          38\d{6,10}|
          (?:
            2[89]|
            39
          )(?:
            0\d{5,6}|
            [1-9]\d{5}
          )
        </nationalNumberPattern>
      </fixedLine>
      <mobile>
        <possibleLengths national=""8""/>
        <exampleNumber>43201234</exampleNumber>
        <nationalNumberPattern>4[3-9]\d{6}</nationalNumberPattern>
      </mobile>
      <tollFree>
        <possibleLengths national=""8""/>
        <exampleNumber>80001234</exampleNumber>
        <nationalNumberPattern>800\d{5}</nationalNumberPattern>
      </tollFree>
      <premiumRate>
";
   "        <possibleLengths national=""8""/>
        <exampleNumber>90001234</exampleNumber>
        <nationalNumberPattern>900\d{5}</nationalNumberPattern>
      </premiumRate>
    </territory>"];
  ["

    <!-- Yemen (YE) -->
    <!-- No tollFree or premiumRate information can be found. -->
    <!-- http://www.itu.int/oth/T02020000E7/en -->
    <territory id=""YE"" countryCode=""967"" internationalPrefix=""00"" nationalPrefix=""0"">
      <availableFormats>
        <numberFormat pattern=""(\d)(\d{3})(\d{3,4})"" nationalPrefixFormattingRule=""$NP$FG"">
          <leadingDigits>
            [1-6]|
            7(?:
              [24-6]|
              8[0-7]
            )
          </leadingDigits>
          <format>$1 $2 $3</format>
        </numberFormat>
        <numberFormat pattern=""(\d{3})(\d{3})(\d{3})"" nationalPrefixFormattingRule=""$NP$FG"">
          <leadingDigits>7</leadingDigits>
          <format>$1 $2 $3</format>
        </numberFormat>
      </availableFormats>
      <generalDesc>
        <nationalNumberPattern>
          (?:
            1|
            7\d
          )\d{7}|
          [1-7]\d{6}
        </nationalNumberPattern>
      </generalDesc>
      <fixedLine>
        <possibleLengths national=""7,8"" localOnly=""6""/>
        <exampleNumber>1234567</exampleNumber>
        <nationalNumberPattern>
          78[0-7]\d{4}|
          17\d{6}|
          (?:
            [12][2-68]|
            3[2358]|
            4[2-58]|
            5[2-6]|
            6[3-58]|
            7[24-6]
          )\d{5}
        </nationalNumberPattern>
      </fixedLine>
      <!-- Adding 70 fr";
   "om numbers found online. -->
      <mobile>
        <possibleLengths national=""9""/>
        <exampleNumber>712345678</exampleNumber>
        <nationalNumberPattern>7[01378]\d{7}</nationalNumberPattern>
      </mobile>
    </territory>"];
  ["

    <!-- Mayotte (YT) -->
    <!-- Calling code and formatting shared with 'RE' -->
    <!-- Some information at the following source, but most fr";
   "om collection of internet data. -->
    <!-- Verifies the fixed-line prefixes, but the mobile prefixes listed here seem out of date. -->
    <!-- http://en.wikipedia.org/wiki/Telephone_numbers_in_France -->
    <!-- http://www.comores-online.com/mwezinet/internet/262 -->
    <!-- http://www.arcep.fr/index.php?id=2137&bloc=0596&CMD=RESULTS_NUMEROTATION -->
    <territory id=""YT"" countryCode=""262"" internationalPrefix=""00"" nationalPrefix=""0"">
      <generalDesc>
        <nationalNumberPattern>
          (?:
            639\d|
            7093
          )\d{5}|
          (?:
            26|
            80|
            9\d
          )\d{7}
        </nationalNumberPattern>
      </generalDesc>
      <fixedLine>
        <possibleLengths national=""9""/>
        <exampleNumber>269601234</exampleNumber>
        <nationalNumberPattern>
          26(?:
            89\d|
            9(?:
              0[0-467]|
              15|
              5[0-4]|
              6\d|
              [78]0
            )
          )\d{4}
        </nationalNumberPattern>
      </fixedLine>
      <mobile>
        <possibleLengths national=""9""/>
        <exampleNumber>639012345</exampleNumber>
        <nationalNumberPattern>
          (?:
            639(?:
              0[0-79]|
              1[019]|
              [267]\d|
              3[09]|
              40|
              5[05-9]|
              9[04-79]
            )|
            7093[5-7]
          )\d{4}
        </nationalNumberPattern>
      </mobile>
      <!-- Same as in France. -->
      <tollFree>
        <possibleLengths national=""9""/>
        <exampleNumber>801234567</exampleNumber>
        <nationalNumberPattern>80\d{7}</nationalNumberPattern>
      </tollFree>
      <voip>
        <possibleLengths national=""9""/>
        <exampleNumber>939801234</exampleNumber>
        <nationalNumberPattern>
";
   "          9(?:
            (?:
              39|
              47
            )8[01]|
            769\d
          )\d{4}
        </nationalNumberPattern>
      </voip>
    </territory>"];
  ["

    <!-- South Africa (ZA) -->
    <!-- http://www.itu.int/oth/T02020000C1/en -->
    <!-- http://en.wikipedia.org/wiki/Telephone_numbers_in_South_Africa -->
    <!-- https://www.icasa.org.za/legislation-and-regulations/amendment-of-the-numbering-plan-regulations-2016 -->
    <territory id=""ZA"" countryCode=""27"" internationalPrefix=""00"" nationalPrefix=""0""
               mobileNumberPortableRegion=""true"">
      <availableFormats>
        <numberFormat pattern=""(\d{2})(\d{3,4})"" nationalPrefixFormattingRule=""$NP$FG"">
          <leadingDigits>8[1-4]</leadingDigits>
          <format>$1 $2</format>
        </numberFormat>
        <numberFormat pattern=""(\d{2})(\d{3})(\d{2,3})"" nationalPrefixFormattingRule=""$NP$FG"">
          <leadingDigits>8[1-4]</leadingDigits>
          <format>$1 $2 $3</format>
        </numberFormat>
        <numberFormat pattern=""(\d{3})(\d{3})(\d{3})"" nationalPrefixFormattingRule=""$NP$FG"">
          <leadingDigits>860</leadingDigits>
          <format>$1 $2 $3</format>
        </numberFormat>
        <numberFormat pattern=""(\d{2})(\d{3})(\d{4})"" nationalPrefixFormattingRule=""$NP$FG"">
          <leadingDigits>[1-9]</leadingDigits>
          <format>$1 $2 $3</format>
        </numberFormat>
        <!-- 10-digit uan numbers. -->
        <numberFormat pattern=""(\d{3})(\d{3})(\d{4})"" nationalPrefixFormattingRule=""$NP$FG"">
          <leadingDigits>8</leadingDigits>
          <format>$1 $2 $3</format>
        </numberFormat>
      </availableFormats>
      <generalDesc>
        <nationalNumberPattern>
          [1-79]\d{8}|
          8\d{4,9}
        </nationalNumberPattern>
      </generalDesc>
      <fixedLine>
        <possibleLengths national=""9""/>
        <exampleNumber>101234567</exampleNumber>
        <nationalNumberPattern>
          (?:
            2(?:
              0330|
              4302
            )|
            52087
          )0\d{3}|
          (?:
            1[0-8]|
            2[1-378]|
            3[1-69]|
            4\d|
            5[1346-8]
";
   "          )\d{7}
        </nationalNumberPattern>
      </fixedLine>
      <!-- Based on confirmation fr";
   "om telecom partners, many sub ranges of 1X, 2X, 3X, 4X and
           5X - which are fixed-line as per ITU - can also be used for mobile purpose. Similarly,
           some 87X VOIP ranges are also moved here.
           Even though ITU mentions it as protected, the 9-digit 85 range is a valid mobile range
           as per Wikipedia and user reports. Also note that we are still supporting numbers
           beginning with 8 that are fewer than 9 digits since they are in prominent places
           online, even though the ITU document says numbers must be 10 digits long (including the
           national prefix). -->
      <mobile>
        <possibleLengths national=""[5-9]""/>
        <exampleNumber>711234567</exampleNumber>
        <nationalNumberPattern>
          (?:
            1(?:
              3492[0-25]|
              4495[0235]|
              549(?:
                20|
                5[01]
              )
            )|
            4[34]492[01]
          )\d{3}|
          8[1-4]\d{3,7}|
          (?:
            2[27]|
            47|
            54
          )4950\d{3}|
          (?:
            1(?:
              049[2-4]|
              9[12]\d\d
            )|
            (?:
              50[0-2]|
              [67]\d\d
            )\d\d|
            8(?:
              5\d{3}|
              7(?:
                08[67]|
                158|
                28[5-9]|
                310
              )
            )
          )\d{4}|
          (?:
            1[6-8]|
            28|
            3[2-69]|
            4[025689]|
            5[36-8]
          )4920\d{3}|
          (?:
            12|
            [2-5]1
          )492\d{4}
        </nationalNumberPattern>
      </mobile>
      <tollFree>
        <possibleLengths national=""9""/>
        <exampleNumber>801234567</exampleNumber>
        <nationalNumberPattern>80\d{7}</nationalNumberPattern>
      </tollFree>
";
   "      <premiumRate>
        <possibleLengths national=""9""/>
        <exampleNumber>862345678</exampleNumber>
        <nationalNumberPattern>
          (?:
            86[2-9]|
            9[0-2]\d
          )\d{6}
        </nationalNumberPattern>
      </premiumRate>
      <sharedCost>
        <possibleLengths national=""9""/>
        <exampleNumber>860123456</exampleNumber>
        <nationalNumberPattern>860\d{6}</nationalNumberPattern>
      </sharedCost>
      <!-- 88 used to be assigned to pagers prior to a migration in 2010, where it was unassigned.
           According to an official doc fr";
   "om 2016, 88 is ""Released"" for ""Future non-geographic
           services"", but we don't know yet what these are, so we do not validate them. -->
      <voip>
        <possibleLengths national=""9""/>
        <exampleNumber>871234567</exampleNumber>
        <nationalNumberPattern>
          87(?:
            08[0-589]|
            15[0-79]|
            28[0-4]|
            31[1-9]
          )\d{4}|
          87(?:
            [02][0-79]|
            1[0-46-9]|
            3[02-9]|
            [4-9]\d
          )\d{5}
        </nationalNumberPattern>
      </voip>
      <!-- MaxiCall numbers cost as much as national long distance, so they are classified as UAN
           numbers.
           Prefix 861 with 10 digits is added based on user report. -->
      <uan>
        <possibleLengths national=""9,10""/>
        <exampleNumber>861123456</exampleNumber>
        <nationalNumberPattern>861\d{6,7}</nationalNumberPattern>
      </uan>
    </territory>"];
  ["

    <!-- Zambia (ZM) -->
    <!-- http://www.itu.int/oth/T02020000E8/en -->
    <!-- https://www.zicta.zm/Downloads/Numbering%20Plan.pdf (2014, possibly out of date) -->
    <territory id=""ZM"" countryCode=""260"" internationalPrefix=""00"" nationalPrefix=""0"">
      <availableFormats>
        <numberFormat pattern=""(\d{3})(\d{3})"">
          <leadingDigits>[1-9]</leadingDigits>
          <format>$1 $2</format>
          <intlFormat>NA</intlFormat>
        </numberFormat>
        <!-- Format for geographic fixed-line numbers and other non-mobile ranges. -->
        <numberFormat pattern=""(\d{3})(\d{3})(\d{3})"" nationalPrefixFormattingRule=""$NP$FG"">
          <leadingDigits>[28]</leadingDigits>
          <format>$1 $2 $3</format>
        </numberFormat>
        <!-- Format for mobile numbers. -->
        <numberFormat pattern=""(\d{2})(\d{7})"" nationalPrefixFormattingRule=""$NP$FG"">
          <leadingDigits>[579]</leadingDigits>
          <format>$1 $2</format>
        </numberFormat>
      </availableFormats>
      <generalDesc>
        <nationalNumberPattern>
          800\d{6}|
          (?:
            21|
            [579]\d|
            63
          )\d{7}
        </nationalNumberPattern>
      </generalDesc>
      <!-- Zambia has deprecated the ""intra-network"" dialling system as described in
           https://www.zicta.zm/Downloads/Numbering%20Plan.pdf (se";
   "ction 2.2.3). This means that
           lo";
   "cal numbers can only be 6 digits long (and not 6 or 7 as previously modelled).
           This information was provided directly by a contact in Zambia. -->
      <fixedLine>
        <possibleLengths national=""9"" localOnly=""6""/>
        <exampleNumber>211234567</exampleNumber>
        <nationalNumberPattern>21[1-8]\d{6}</nationalNumberPattern>
      </fixedLine>
      <mobile>
        <possibleLengths national=""9""/>
        <exampleNumber>955123456</exampleNumber>
        <nationalNumberPattern>
          (?:
            [59][5-8]|
            7[5-9]
          )\d{7}
        </nationalNumberPattern>
";
   "      </mobile>
      <tollFree>
        <possibleLengths national=""9""/>
        <exampleNumber>800123456</exampleNumber>
        <nationalNumberPattern>800\d{6}</nationalNumberPattern>
      </tollFree>
      <voip>
        <possibleLengths national=""9""/>
        <exampleNumber>630123456</exampleNumber>
        <nationalNumberPattern>63\d{7}</nationalNumberPattern>
      </voip>
    </territory>"];
  ["

    <!-- Zimbabwe (ZW) -->
    <!-- http://www.itu.int/oth/T02020000E9/en -->
    <!-- https://telone.co.zw/sites/default/files/TelOneNewAreaCodesUpdated.pdf -->
    <territory id=""ZW"" countryCode=""263"" internationalPrefix=""00"" nationalPrefix=""0"">
      <availableFormats>
        <!-- Three-digit area codes (short format) -->
        <numberFormat pattern=""(\d{3})(\d{3,5})"" nationalPrefixFormattingRule=""$NP$FG"">
          <leadingDigits>
            2(?:
              0[45]|
              2[278]|
              [49]8
            )|
            3(?:
              [09]8|
              17
            )|
            6(?:
              [29]8|
              37|
              75
            )|
            [23][78]|
            (?:
              33|
              5[15]|
              6[68]
            )[78]
          </leadingDigits>
          <format>$1 $2</format>
        </numberFormat>
        <!-- One-digit area codes -->
        <numberFormat pattern=""(\d)(\d{3})(\d{2,4})"" nationalPrefixFormattingRule=""$NP$FG"">
          <leadingDigits>[49]</leadingDigits>
          <format>$1 $2 $3</format>
        </numberFormat>
        <!-- Tollfree Numbers -->
        <numberFormat pattern=""(\d{3})(\d{4})"" nationalPrefixFormattingRule=""$NP$FG"">
          <leadingDigits>80</leadingDigits>
          <format>$1 $2</format>
        </numberFormat>
        <!-- Format of new fixed-line ranges after renumbering. -->
        <numberFormat pattern=""(\d{2})(\d{7})"" nationalPrefixFormattingRule=""($NP$FG)"">
          <leadingDigits>
            24|
            8[13-59]|
            (?:
              2[05-79]|
              39|
              5[45]|
              6[15-8]
            )2
          </leadingDigits>
          <leadingDigits>
            2(?:
              02[014]|
              4|
              [56]20|
              [79]2
            )|
            392|
            5(?:
              42|
              525
            )|
            6(?:
              [16-8]21|
              52[013]
";
   "            )|
            8[13-59]
          </leadingDigits>
          <format>$1 $2</format>
        </numberFormat>
        <!-- Mobile numbers -->
        <numberFormat pattern=""(\d{2})(\d{3})(\d{4})"" nationalPrefixFormattingRule=""$NP$FG"">
          <leadingDigits>7</leadingDigits>
          <format>$1 $2 $3</format>
        </numberFormat>
        <!-- Three-digit area codes (long format) -->
        <numberFormat pattern=""(\d{3})(\d{3})(\d{3,4})"" nationalPrefixFormattingRule=""$NP$FG"">
          <leadingDigits>
            2(?:
              1[39]|
              2[0157]|
              [378]|
              [56][14]
            )|
            3(?:
              12|
              29
            )
          </leadingDigits>
          <leadingDigits>
            2(?:
              1[39]|
              2[0157]|
              [378]|
              [56][14]
            )|
            3(?:
              123|
              29
            )
          </leadingDigits>
          <format>$1 $2 $3</format>
        </numberFormat>
        <!-- VOIP numbers -->
        <numberFormat pattern=""(\d{4})(\d{6})"" nationalPrefixFormattingRule=""$NP$FG"">
          <leadingDigits>8</leadingDigits>
          <format>$1 $2</format>
        </numberFormat>
        <!-- Two-digit area codes (short format) -->
        <numberFormat pattern=""(\d{2})(\d{3,5})"" nationalPrefixFormattingRule=""$NP$FG"">
          <leadingDigits>
            1|
            2(?:
              0[0-36-9]|
              12|
              29|
              [56]
            )|
            3(?:
              1[0-689]|
              [24-6]
            )|
            5(?:
              [0236-9]|
              1[2-4]
            )|
            6(?:
              [013-59]|
              7[0-46-9]
            )|
            (?:
              33|
              55|
              6[68]
            )[0-69]|
            (?:
              29|
              3[09]|
              62
            )[0-79]
          </leadingDigits>
          <format>$1 $2</format>
";
   "        </numberFormat>
        <!-- Two-digit area codes (long format) -->
        <numberFormat pattern=""(\d{2})(\d{3})(\d{3,4})"" nationalPrefixFormattingRule=""$NP$FG"">
          <leadingDigits>
            29[013-9]|
            39|
            54
          </leadingDigits>
          <format>$1 $2 $3</format>
        </numberFormat>
        <!-- Four-digit area codes (short format) -->
        <numberFormat pattern=""(\d{4})(\d{3,5})"" nationalPrefixFormattingRule=""$NP$FG"">
          <leadingDigits>
            (?:
              25|
              54
            )8
          </leadingDigits>
          <leadingDigits>
            258|
            5483
          </leadingDigits>
          <format>$1 $2</format>
        </numberFormat>
      </availableFormats>
      <generalDesc>
        <nationalNumberPattern>
          2(?:
            [0-57-9]\d{6,8}|
            6[0-24-9]\d{6,7}
          )|
          [38]\d{9}|
          [35-8]\d{8}|
          [3-6]\d{7}|
          [1-689]\d{6}|
          [1-3569]\d{5}|
          [1356]\d{4}
        </nationalNumberPattern>
      </generalDesc>
      <!-- The first block has the new renumbering format <New_Area_Code>+<New_Prefix>+<SN>. We are
           not aware of the tranisition period yet, so supporting both formats until further
           notice. These new numbers are 3 to 6 digit granularity as per telone.co.zw but for
           maintainability we are storing 4 digits. -->
      <!-- Old fixed-line ranges are grouped by subscriber-number length. -->
      <!-- The new organisation is used for both formatting and validation
           1. First we have 3 digit area code with SN(3,4,5).
           2. Then we have 3 digit area code with SN(6,7).
           3. Then we have 2 digit area code with SN(3,4,5).
           4. Then we have 2 digit area code with SN(6,7).
           5. Then we have 4 digit area code.
           6. Then we have 1 digit area code with SN(6,7). -->
      <fixedLine>
        <possibleLengths national=""[5-10]"" localOnly=""3,4""/>
";
   "        <exampleNumber>1312345</exampleNumber>
        <nationalNumberPattern>
          (?:
            1(?:
              (?:
                3\d|
                9
              )\d|
              [4-8]
            )|
            2(?:
              (?:
                (?:
                  0(?:
                    2[014]|
                    5
                  )|
                  (?:
                    2[0157]|
                    31|
                    84|
                    9
                  )\d\d|
                  [56](?:
                    [14]\d\d|
                    20
                  )|
                  7(?:
                    [089]|
                    2[03]|
                    [35]\d\d
                  )
                )\d|
                4(?:
                  2\d\d|
                  8
                )
              )\d|
              1(?:
                2|
                [39]\d{4}
              )
            )|
            3(?:
              (?:
                123|
                (?:
                  29\d|
                  92
                )\d
              )\d\d|
              7(?:
                [19]|
                [56]\d
              )
            )|
            5(?:
              0|
              1[2-478]|
              26|
              [37]2|
              4(?:
                2\d{3}|
                83
              )|
              5(?:
                25\d\d|
                [78]
              )|
              [689]\d
            )|
            6(?:
              (?:
                [16-8]21|
                28|
                52[013]
              )\d\d|
              [39]
            )|
            8(?:
              [1349]28|
              523
            )\d\d
          )\d{3}|
          (?:
            4\d\d|
            9[2-9]
          )\d{4,5}|
          (?:
            (?:
              2(?:
                (?:
                  (?:
                    0|
                    8[146]
                  )\d|
";
   "                  7[1-7]
                )\d|
                2(?:
                  [278]\d|
                  92
                )|
                58(?:
                  2\d|
                  3
                )
              )|
              3(?:
                [26]|
                9\d{3}
              )|
              5(?:
                4\d|
                5
              )\d\d
            )\d|
            6(?:
              (?:
                (?:
                  [0-246]|
                  [78]\d
                )\d|
                37
              )\d|
              5[2-8]
            )
          )\d\d|
          (?:
            2(?:
              [569]\d|
              8[2-57-9]
            )|
            3(?:
              [013-59]\d|
              8[37]
            )|
            6[89]8
          )\d{3}
        </nationalNumberPattern>
      </fixedLine>
      <mobile>
        <possibleLengths national=""9""/>
        <exampleNumber>712345678</exampleNumber>
        <nationalNumberPattern>
          7(?:
            [1278]\d|
            3[1-9]
          )\d{6}
        </nationalNumberPattern>
      </mobile>
      <tollFree>
        <possibleLengths national=""7""/>
        <exampleNumber>8001234</exampleNumber>
        <nationalNumberPattern>
          80(?:
            [01]\d|
            20|
            8[0-8]
          )\d{3}
        </nationalNumberPattern>
      </tollFree>
      <!-- No premiumRate information can be found. -->
      <voip>
        <possibleLengths national=""10""/>
        <exampleNumber>8686123456</exampleNumber>
        <nationalNumberPattern>
          86(?:
            1[12]|
            22|
            30|
            44|
            55|
            77|
            8[368]
          )\d{6}
        </nationalNumberPattern>
      </voip>
    </territory>"];
  ["

    <!-- Universal International Toll Free Number -->
    <!-- http://www.itu.int/en/ITU-T/inr/unum/Pages/uifn.aspx -->
    <territory id=""001"" countryCode=""800"">
      <availableFormats>
        <numberFormat pattern=""(\d{4})(\d{4})"">
          <leadingDigits>\d</leadingDigits>
          <format>$1 $2</format>
        </numberFormat>
      </availableFormats>
      <generalDesc>
        <nationalNumberPattern>
          (?:
            00|
            [1-9]\d
          )\d{6}
        </nationalNumberPattern>
      </generalDesc>
      <!-- SN number starting with '00' is added based on number mentioned in
           https://www.lectra.com/en/contact and it is diallable fr";
   "om France (Orange network)
           https://www.bio-rad.com/contact-us?field_custom_metadata_country=39&field_custom_metadata_vertical_code=All (country = France) -->
      <tollFree>
        <possibleLengths national=""8""/>
        <exampleNumber>12345678</exampleNumber>
        <nationalNumberPattern>
          (?:
            00|
            [1-9]\d
          )\d{6}
        </nationalNumberPattern>
      </tollFree>
    </territory>"];
  ["

    <!-- Universal International Shared Cost Number -->
    <!-- http://www.itu.int/rec/T-REC-E.169-200205-I/en -->
    <territory id=""001"" countryCode=""808"">
      <availableFormats>
        <numberFormat pattern=""(\d{4})(\d{4})"">
          <leadingDigits>[1-9]</leadingDigits>
          <format>$1 $2</format>
        </numberFormat>
      </availableFormats>
      <generalDesc>
        <nationalNumberPattern>[1-9]\d{7}</nationalNumberPattern>
      </generalDesc>
      <sharedCost>
        <possibleLengths national=""8""/>
        <exampleNumber>12345678</exampleNumber>
        <nationalNumberPattern>[1-9]\d{7}</nationalNumberPattern>
      </sharedCost>
    </territory>"];
  ["

    <!-- Inmarsat Gl";
   "obal Limited -->
    <!-- http://www.itu.int/oth/T0202000065/en -->
    <!-- http://www.inmarsat.com -->
    <territory id=""001"" countryCode=""870"">
      <availableFormats>
        <numberFormat pattern=""(\d{3})(\d{3})(\d{3})"">
          <leadingDigits>[235-7]</leadingDigits>
          <format>$1 $2 $3</format>
        </numberFormat>
      </availableFormats>
      <generalDesc>
        <nationalNumberPattern>
          7\d{11}|
          [235-7]\d{8}
        </nationalNumberPattern>
      </generalDesc>
      <!-- Assigning these to mobile since Inmarsat considers them to be mobile numbers. -->
      <mobile>
        <possibleLengths national=""9,12""/>
        <exampleNumber>301234567</exampleNumber>
        <nationalNumberPattern>
          (?:
            [356]|
            774[45]
          )\d{8}|
          7[6-8]\d{7}
        </nationalNumberPattern>
      </mobile>
      <voip>
        <possibleLengths national=""9""/>
        <exampleNumber>201234567</exampleNumber>
        <nationalNumberPattern>2\d{8}</nationalNumberPattern>
      </voip>
    </territory>"];
  ["

    <!-- VISIONng -->
    <!-- Number length has been derived fr";
   "om examples found online. -->
    <!-- http://www.itu.int/oth/T02020000E5/en -->
    <territory id=""001"" countryCode=""878"">
      <availableFormats>
        <!-- Formatting chosen based on online examples. -->
        <numberFormat pattern=""(\d{2})(\d{5})(\d{5})"">
          <leadingDigits>1</leadingDigits>
          <format>$1 $2 $3</format>
        </numberFormat>
      </availableFormats>
      <generalDesc>
        <nationalNumberPattern>10\d{10}</nationalNumberPattern>
      </generalDesc>
      <voip>
        <possibleLengths national=""12""/>
        <exampleNumber>101234567890</exampleNumber>
        <nationalNumberPattern>10\d{10}</nationalNumberPattern>
      </voip>
    </territory>"];
  ["

    <!-- Iridium -->
    <!-- Globalstar also reports using this prefix, but we cannot find any online numbers with the
         Globalstar prefixes, so are not sure how exactly these work, and what length the numbers
         are. For this reason, we only support Iridium numbers at the moment. -->
    <!-- http://www.iridium.com -->
    <!-- http://www.itu.int/oth/T0202000069/en -->
    <territory id=""001"" countryCode=""881"">
      <availableFormats>
        <!-- Formatting chosen based on ITU document and Iridium website FAQ. -->
        <numberFormat pattern=""(\d)(\d{3})(\d{5})"">
          <leadingDigits>[0-37-9]</leadingDigits>
          <format>$1 $2 $3</format>
        </numberFormat>
        <numberFormat pattern=""(\d)(\d{3})(\d{5,6})"">
          <leadingDigits>6</leadingDigits>
          <format>$1 $2 $3</format>
        </numberFormat>
      </availableFormats>
      <generalDesc>
        <nationalNumberPattern>
          6\d{9}|
          [0-36-9]\d{8}
        </nationalNumberPattern>
      </generalDesc>
      <mobile>
        <possibleLengths national=""9,10""/>
        <exampleNumber>612345678</exampleNumber>
        <nationalNumberPattern>
          6\d{9}|
          [0-36-9]\d{8}
        </nationalNumberPattern>
      </mobile>
    </territory>"];
  ["

    <!-- List of all international satellite number prefixes. -->
    <!-- BebbiCell (Formerly Gl";
   "obal Networks Switzerland AG) +88234 -->
    <!-- Maritime Communications Partner (MCP) +88232 -->
    <!-- Oration Technologies +88237 -->
    <!-- Telespazio S.p.A. +88213 -->
    <!-- Thuraya +88216 -->
    <!-- China Telecommunications Corporation Satellite Communications Branch +88252 -->
    <!-- https://www.itu.int/net/itu-t/inrdb/e164_intlsharedcc.aspx?cc=-1 -->
    <!-- http://www.itu.int/oth/T0202000054/en -->
    <!-- http://www.gsm.aq/numberplan.php -->
    <!-- http://www.gl";
   "obal.aq -->
    <!-- http://www.itu.int/oth/T02020000F4/en -->
    <!-- http://www.itu.int/oth/T02020000A0/en -->
    <!-- http://www.itu.int/oth/T02020000CC/en -->
    <!-- http://www.itu.int/oth/T02020000CF/en -->
    <!-- https://www.itu.int/oth/T0202000100/en -->
    <territory id=""001"" countryCode=""882"">
      <availableFormats>
        <!-- For 7 digit numbers in general -->
        <numberFormat pattern=""(\d{2})(\d{5})"">
          <leadingDigits>
            16|
            342
          </leadingDigits>
          <format>$1 $2</format>
        </numberFormat>
        <!-- For 8 digit mobile numbers. -->
        <numberFormat pattern=""(\d{2})(\d{6})"">
          <leadingDigits>49</leadingDigits>
          <format>$1 $2</format>
        </numberFormat>
        <!-- For 8 digit VOIP numbers. -->
        <numberFormat pattern=""(\d{2})(\d{2})(\d{4})"">
          <leadingDigits>
            1[36]|
            9
          </leadingDigits>
          <format>$1 $2 $3</format>
        </numberFormat>
        <!-- For 9 digit mobile numbers. -->
        <numberFormat pattern=""(\d{2})(\d{4})(\d{3})"">
          <leadingDigits>3[23]</leadingDigits>
          <format>$1 $2 $3</format>
        </numberFormat>
        <!-- For 9 and 10 digit VOIP numbers. -->
        <numberFormat pattern=""(\d{2})(\d{3,4})(\d{4})"">
          <leadingDigits>16</leadingDigits>
          <format>$1 $2 $3</format>
        </numberFormat>
";
   "        <!-- For 10 digit numbers in general. -->
        <numberFormat pattern=""(\d{2})(\d{4})(\d{4})"">
          <leadingDigits>
            10|
            23|
            3(?:
              [15]|
              4[57]
            )|
            4|
            5[12]
          </leadingDigits>
          <format>$1 $2 $3</format>
        </numberFormat>
        <!-- For voice mail numbers. -->
        <numberFormat pattern=""(\d{3})(\d{4})(\d{4})"">
          <leadingDigits>34</leadingDigits>
          <format>$1 $2 $3</format>
        </numberFormat>
        <!-- For 11 and 12 digit numbers except voice mail. -->
        <numberFormat pattern=""(\d{2})(\d{4,5})(\d{5})"">
          <leadingDigits>[1-35]</leadingDigits>
          <format>$1 $2 $3</format>
        </numberFormat>
      </availableFormats>
      <generalDesc>
        <nationalNumberPattern>
          [13]\d{6}(?:
            \d{2,5}
          )?|
          [19]\d{7}|
          (?:
            [25]\d\d|
            4
          )\d{7}(?:
            \d{2}
          )?
        </nationalNumberPattern>
      </generalDesc>
      <!-- Bebbicell Mobile numbers, MCP and Oration. We are guessing the number length for
           Oration based on numbers found online. AT&T have confirmed that 37X numbers
           are 12 digit MSISDN numbers. -->
      <mobile>
        <possibleLengths national=""[7-10],12""/>
        <exampleNumber>3421234</exampleNumber>
        <nationalNumberPattern>
          342\d{4}|
          (?:
            337|
            49
          )\d{6}|
          (?:
            3(?:
              2|
              47|
              7\d{3}
            )|
            5(?:
              0\d{3}|
              2[0-2]
            )
          )\d{7}
        </nationalNumberPattern>
      </mobile>
      <!-- Telespazio S.p.A., Thuraya and Bebbicell VOIP numbers. -->
      <!-- Added Vodafone's satellite range +882 39 here. Length and type are based on user-
           reported issue as there are no numbers found online. -->
";
   "      <voip>
        <possibleLengths national=""[7-12]""/>
        <exampleNumber>390123456789</exampleNumber>
        <nationalNumberPattern>
          1(?:
            3(?:
              0[0347]|
              [13][0139]|
              2[035]|
              4[013568]|
              6[0459]|
              7[06]|
              8[15-8]|
              9[0689]
            )\d{4}|
            6\d{5,10}
          )|
          (?:
            345\d|
            9[89]
          )\d{6}|
          (?:
            10|
            2(?:
              3|
              85\d
            )|
            3(?:
              [15]|
              [69]\d\d
            )|
            4[15-8]|
            51
          )\d{8}
        </nationalNumberPattern>
      </voip>
      <voicemail>
        <possibleLengths national=""11""/>
        <exampleNumber>34851234567</exampleNumber>
        <nationalNumberPattern>348[57]\d{7}</nationalNumberPattern>
      </voicemail>
    </territory>"];
  ["

    <!-- bandwidth.com -->
    <!-- SipMe -->
    <!-- Voxbone -->
    <!-- http://www.itu.int/oth/T02020000FB/en -->
    <!-- http://www.itu.int/oth/T02020000FC/en -->
    <!-- http://www.itu.int/oth/T02020000F3/en -->
    <territory id=""001"" countryCode=""883"">
      <availableFormats>
        <numberFormat pattern=""(\d{3})(\d{3})(\d{2,8})"">
          <leadingDigits>
            [14]|
            2[24-689]|
            3[02-689]|
            51[24-9]
          </leadingDigits>
          <format>$1 $2 $3</format>
        </numberFormat>
        <numberFormat pattern=""(\d{3})(\d{3})(\d{3})"">
          <leadingDigits>510</leadingDigits>
          <format>$1 $2 $3</format>
        </numberFormat>
        <numberFormat pattern=""(\d{3})(\d{3})(\d{4})"">
          <leadingDigits>21</leadingDigits>
          <format>$1 $2 $3</format>
        </numberFormat>
        <!-- When only 8 digits follow the area code formatting as XXXX XXXX
             seems preferred (see Bandwidth.com and SipMe) -->
        <numberFormat pattern=""(\d{4})(\d{4})(\d{4})"">
          <leadingDigits>51[13]</leadingDigits>
          <format>$1 $2 $3</format>
        </numberFormat>
        <numberFormat pattern=""(\d{3})(\d{3})(\d{3})(\d{3})"">
          <leadingDigits>[235]</leadingDigits>
          <format>$1 $2 $3 $4</format>
        </numberFormat>
      </availableFormats>
      <generalDesc>
        <nationalNumberPattern>
          (?:
            [1-4]\d|
            51
          )\d{6,10}
        </nationalNumberPattern>
      </generalDesc>
      <voip>
        <possibleLengths national=""[8-12]""/>
        <exampleNumber>510012345</exampleNumber>
        <nationalNumberPattern>
          (?:
            2(?:
              00\d\d|
              10
            )|
            (?:
              370[1-9]|
              51\d0
            )\d
          )\d{7}|
          51(?:
            00\d{5}|
            [24-9]0\d{4,7}
          )|
          (?:
            1[0-79]|
            2[24-689]|
            3[02-689]|
";
   "            4[0-4]
          )0\d{5,9}
        </nationalNumberPattern>
      </voip>
    </territory>"];
  ["

    <!-- United Nations- OCHA -->
    <!-- Numbers here are classified as UAN, as they are non-geographical and universally
         accessible. In addition, the en";
   "d-user tariff to reach these numbers is lower or similar to
         the tariff of a national call. -->
    <!-- http://www.itu.int/oth/T02020000FA/en -->
    <territory id=""001"" countryCode=""888"">
      <availableFormats>
        <numberFormat pattern=""(\d{3})(\d{3})(\d{5})"">
          <format>$1 $2 $3</format>
        </numberFormat>
      </availableFormats>
      <generalDesc>
        <nationalNumberPattern>\d{11}</nationalNumberPattern>
      </generalDesc>
      <uan>
        <possibleLengths national=""11""/>
        <exampleNumber>12345678901</exampleNumber>
        <nationalNumberPattern>\d{11}</nationalNumberPattern>
      </uan>
    </territory>"];
  ["

    <!-- Universal International Premium Rate Number -->
    <!-- http://www.itu.int/rec/T-REC-E.169-200205-I/en -->
    <territory id=""001"" countryCode=""979"">
      <availableFormats>
        <numberFormat pattern=""(\d)(\d{4})(\d{4})"">
          <leadingDigits>[1359]</leadingDigits>
          <format>$1 $2 $3</format>
        </numberFormat>
      </availableFormats>
      <generalDesc>
        <nationalNumberPattern>[1359]\d{8}</nationalNumberPattern>
      </generalDesc>
      <premiumRate>
        <possibleLengths national=""9"" localOnly=""8""/>
        <exampleNumber>123456789</exampleNumber>
        <nationalNumberPattern>[1359]\d{8}</nationalNumberPattern>
      </premiumRate>
    </territory>"];
  ["

  </territories>
</phoneNumberMetadata>
"]].
