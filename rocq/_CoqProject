-Q theories Verif
theories/Base.v
theories/BaseFacts.v
theories/Utf8.v
theories/Utf8Facts.v
theories/M_ParamMap.v
theories/M_VCard.v
theories/M_VCardText.v
theories/S_Escape.v
theories/P_Escape.v
theories/S_Fold.v
theories/P_Fold.v
theories/S_CardText.v
theories/P_CardText.v
theories/Prop_Escape.v
theories/Prop_Fold.v
theories/S_Card.v
theories/P_Assoc.v
theories/P_Card.v
theories/Prop_Card.v
theories/S_Parse.v
theories/P_Parse.v
theories/P_Parse2.v
theories/P_ParseLoop.v
theories/S_Soft.v
theories/P_Soft.v
theories/P_SoftLoop.v
theories/S_RoundTrip.v
theories/P_RoundTrip.v
theories/P_RoundTrip2.v
theories/P_RoundTrip3.v
theories/Prop_Parse.v
theories/Prop_Soft.v
theories/M_Split.v
theories/S_Split.v
theories/P_Split.v
theories/Prop_Split.v
theories/QtText.v
theories/M_Values.v
theories/M_Date.v
theories/S_Date.v
theories/P_Date.v
theories/Prop_Date.v
theories/M_Addressee.v
theories/S_Addressee.v
theories/P_Lists.v
theories/P_Addressee.v
theories/S_Values.v
theories/P_Values.v
theories/P_AddrEq.v
theories/Prop_Values.v
theories/Prop_Addressee.v
theories/M_ContactGroup.v
theories/S_ContactGroup.v
theories/P_ContactGroup.v
theories/M_Copy.v
theories/S_Copy.v
theories/P_Copy.v
theories/Prop_Copy.v
theories/Prop_ContactGroup.v
theories/M_AddressFormat.v
theories/S_AddressFormat.v
theories/P_AddressFormat.v
theories/P_AddressFormat2.v
theories/P_AddressFormat3.v
theories/P_AddressFormat4.v
theories/Prop_AddressFormat.v
theories/M_Name.v
theories/S_Name.v
theories/P_Name.v
theories/P_Email.v
theories/Prop_Name.v
theories/M_VCardTool.v
theories/P_ReadBack.v
theories/P_Items.v
theories/P_Order.v
theories/P_ReadFields.v
theories/S_Contact.v
theories/P_Seen.v
theories/P_Lines.v
theories/P_Contact.v
theories/P_Chunks.v
theories/P_Fields.v
theories/P_Fields2.v
theories/P_Types.v
theories/P_Addr.v
theories/P_Fields3.v
theories/P_Fields4.v
theories/P_Fields5.v
theories/P_Fields6.v
theories/P_Fields7.v
theories/P_Contact2.v
theories/P_ContactCase.v
theories/Prop_Contact.v
theories/Prop_Contact2.v
theories/P_Pic40.v
theories/Prop_Contact3.v
theories/M_Ldif.v
theories/S_Ldif.v
theories/P_Ldif.v
theories/P_LdifEntry.v
theories/P_LdifConv.v
theories/P_LdifBirth.v
theories/P_LdifCrlf.v
theories/Prop_Ldif.v
theories/P_LdifText.v
theories/S_LdifContact.v
theories/P_LdifRead.v
theories/P_LdifBack.v
theories/P_LdifStreet.v
theories/P_LdifGroup.v
theories/Prop_Ldif2.v
theories/M_Stream.v
theories/S_Stream.v
theories/P_Stream.v
theories/P_StreamBack.v
theories/P_StreamCase.v
theories/Prop_Stream.v
theories/S_Whole.v
theories/P_Whole.v
theories/Prop_Whole.v
theories/M_Convert.v
theories/S_Convert.v
theories/P_Convert.v
theories/P_Convert2.v
theories/Prop_Convert.v
theories/S_Orderly.v
theories/P_Orderly.v
theories/P_Orderly2.v
theories/P_Orderly3.v
theories/Prop_Orderly.v
theories/S_Stable.v
theories/P_Stable.v
theories/P_Stable2.v
theories/Prop_Stable.v
theories/S_Four.v
theories/P_Four.v
theories/P_Stable4.v
theories/P_Own.v
theories/Prop_Four.v
theories/M_Api.v
theories/S_Api.v
theories/P_Api.v
theories/Prop_Api.v
theories/M_Access.v
theories/S_Access.v
theories/P_Access.v
theories/Prop_Access.v
theories/S_StreamNull.v
theories/P_StreamNull.v
theories/Prop_StreamNull.v
theories/M_Debug.v
theories/S_Debug.v
theories/P_Debug.v
theories/Prop_Debug.v
theories/M_AddressData.v
theories/S_AddressData.v
theories/P_AddressData.v
theories/Prop_AddressData.v
theories/S_Order.v
theories/P_CardOrder.v
theories/P_Unknown.v
theories/Prop_Order.v
theories/S_Case.v
theories/P_Case.v
theories/Prop_Case.v
theories/S_Foreign.v
theories/P_Foreign.v
theories/Prop_Foreign.v
theories/S_Mailbox.v
theories/P_Mailbox.v
theories/Prop_Mailbox.v
theories/S_DateText.v
theories/P_DateText.v
theories/Prop_DateText.v
theories/S_Slots.v
theories/Prop_Slots.v
theories/S_LdifChange.v
theories/P_LdifChange.v
theories/Prop_LdifChange.v
theories/S_FormatText.v
theories/P_FormatText.v
theories/Prop_FormatText.v
theories/S_Coding.v
theories/P_Unescape.v
theories/P_Coding.v
theories/Prop_Coding.v
theories/S_Meaning.v
theories/P_Meaning.v
theories/P_Meaning2.v
theories/P_Meaning3.v
theories/Prop_Meaning.v
theories/S_Entries.v
theories/P_Entries.v
theories/Prop_Entries.v
theories/S_GroupDoc.v
theories/P_GroupDoc.v
theories/Prop_GroupDoc.v
theories/S_Written.v
theories/P_Written.v
theories/P_Written2.v
theories/P_Written3.v
theories/P_Written4.v
theories/P_Written5.v
theories/P_Written6.v
theories/P_Written7.v
theories/P_Written8.v
theories/Prop_Written.v
theories/S_LdifMeaning.v
theories/P_LdifMeaning.v
theories/P_LdifMeaning2.v
theories/P_LdifMeaning3.v
theories/Prop_LdifMeaning.v
theories/S_LdifWritten.v
theories/P_LdifWritten.v
theories/Prop_LdifWritten.v
theories/S_Whole21.v
theories/P_Whole21.v
theories/Prop_Whole21.v
theories/M_NameWords.v
theories/S_NameWords.v
theories/P_NameWords.v
theories/Prop_NameWords.v
theories/Cases_World.v
theories/Cases_Files.v
theories/Cases_Contacts.v
theories/Cases_Dates.v
theories/Cases_Ldif.v
theories/M_Formats.v
theories/S_Formats.v
theories/P_Formats.v
theories/Prop_Formats.v
theories/Cases_Format.v
theories/M_GroupError.v
theories/S_GroupError.v
theories/P_GroupError.v
theories/Prop_GroupError.v
theories/S_NameShown.v
theories/P_NameShown.v
theories/Prop_NameShown.v
theories/M_Services.v
theories/S_Services.v
theories/Prop_Services.v
theories/Prop_Often.v
theories/S_LdifStable.v
theories/P_LdifStable.v
theories/Prop_LdifStable.v
theories/S_Versions.v
theories/Prop_Versions.v
theories/P_Cross.v
theories/Prop_Cross.v
