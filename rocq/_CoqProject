-Q theories Verif
theories/Base.v
theories/Unicode.v
theories/Regex.v
theories/RegexSyntax.v
theories/Consts.v
theories/CountryId.v
theories/Types.v
theories/NationalNumber.v
theories/Metadata.v
theories/Database.v
theories/Validator.v
theories/Valid.v
theories/Number.v
theories/Rfc3966.v
theories/Helper.v
theories/Natural.v
theories/PhoneNumber.v
theories/Parser.v
theories/Formatter.v
theories/Loader.v
theories/Xml.v
theories/DbEventsDefs.v
theories/DbEventsA.v
theories/DbEventsB.v
theories/DbEventsC.v
theories/DbEventsD.v
theories/DbEvents.v
theories/DefaultDb.v
theories/DefaultDbOk.v
theories/Tests.v
theories/Api.v
theories/StrFacts.v
theories/NationalFacts.v
theories/RegexLang.v
theories/RegexFacts.v
theories/RegexCaps.v
theories/DatabaseFacts.v
theories/ParserFacts.v
theories/PropsPanic.v
theories/PropsNumber.v
theories/PropsDatabase.v
theories/ParseInv.v
theories/TextFacts.v
theories/ViableFacts.v
theories/PhoneText.v
theories/FormatFacts.v
theories/PropsParse.v
theories/RegexDeriv.v
theories/E164Facts.v
theories/PropsE164.v
theories/CoreFacts.v
theories/PropsText.v
theories/PropsValid.v
theories/PropsCarrier.v
theories/FormatDigits.v
theories/FormatDollar.v
theories/PropsFormat.v
theories/PropsRfc.v
theories/PropsLoader.v
theories/PropsXml.v
theories/Postcard.v
theories/Bytes.v
theories/DbTextA.v
theories/DbTextB.v
theories/DbTextC.v
theories/DbTextD.v
theories/DbTextE.v
theories/DbTextF.v
theories/DbText.v
theories/PropsPostcard.v
theories/Serde.v
theories/PropsSerde.v
theories/ExtFacts.v
theories/PropsExt.v
theories/DialFacts.v
theories/RegexMany.v
theories/RegexExact.v
theories/RegexCover.v
theories/RegexWords.v
theories/PropsDial.v
theories/PropsTemplate.v
theories/PropsNational.v
theories/PropsOutcome.v
theories/PropsZeros.v
theories/PropsTel.v
theories/ReadFacts.v
theories/PropsReading.v
theories/PropsGives.v
theories/PropsSettle.v
theories/PropsErrors.v
theories/PropsFails.v
theories/PropsDepends.v
theories/PropsPromises.v
theories/PropsLocal.v
theories/PropsIds.v
theories/Lazy.v
theories/LazyFacts.v
theories/Shared.v
theories/PropsThreads.v
theories/ClaimFacts.v
theories/PropsClaims.v
theories/PropsGrouped.v
theories/PropsDescribed.v
theories/PropsZeroFirst.v
theories/PropsOwnCode.v
theories/PropsTrunk.v
theories/PropsAbroad.v
theories/PropsBareCode.v
theories/PropsOrder.v
theories/PropsSpace.v
theories/PropsPattern.v
theories/PropsDocument.v
theories/PropsShipped.v
theories/PropsKey.v
theories/PropsSize.v
theories/PropsTruncated.v
theories/PropsBytes.v
