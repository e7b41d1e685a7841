     = [("utility::NoOp"%string,
         [("ump_type"%string, TyUnit); ("status"%string, TyUnit);
          ("time_data"%string, TyU 16)]);
        ("utility::Clock"%string,
         [("ump_type"%string, TyUnit); ("status"%string, TyUnit);
          ("time_data"%string, TyU 16)]);
        ("utility::Timestamp"%string,
         [("ump_type"%string, TyUnit); ("status"%string, TyUnit);
          ("time_data"%string, TyU 16)]);
        ("utility::DeltaClockstamp"%string,
         [("ump_type"%string, TyUnit); ("status"%string, TyUnit);
          ("time_data"%string, TyU 20)]);
        ("utility::DeltaClockstampTpq"%string,
         [("ump_type"%string, TyUnit); ("status"%string, TyUnit);
          ("time_data"%string, TyU 16)]);
        ("system_common::TuneRequest"%string,
         [("ump_type"%string, TyUnit); ("status"%string, TyUnit);
          ("group"%string, TyU 4)]);
        ("system_common::TimingClock"%string,
         [("ump_type"%string, TyUnit); ("status"%string, TyUnit);
          ("group"%string, TyU 4)]);
        ("system_common::Start"%string,
         [("ump_type"%string, TyUnit); ("status"%string, TyUnit);
          ("group"%string, TyU 4)]);
        ("system_common::Continue"%string,
         [("ump_type"%string, TyUnit); ("status"%string, TyUnit);
          ("group"%string, TyU 4)]);
        ("system_common::Stop"%string,
         [("ump_type"%string, TyUnit); ("status"%string, TyUnit);
          ("group"%string, TyU 4)]);
        ("system_common::ActiveSensing"%string,
         [("ump_type"%string, TyUnit); ("status"%string, TyUnit);
          ("group"%string, TyU 4)]);
        ("system_common::Reset"%string,
         [("ump_type"%string, TyUnit); ("status"%string, TyUnit);
          ("group"%string, TyU 4)]);
        ("system_common::SongPositionPointer"%string,
         [("ump_type"%string, TyUnit); ("status"%string, TyUnit);
          ("group"%string, TyU 4); ("position"%string, TyU 14)]);
        ("system_common::SongSelect"%string,
         [("ump_type"%string, TyUnit); ("status"%string, TyUnit);
          ("group"%string, TyU 4); ("song"%string, TyU 7)]);
        ("system_common::TimeCode"%string,
         [("ump_type"%string, TyUnit); ("status"%string, TyUnit);
          ("group"%string, TyU 4); ("time_code"%string, TyU 7)]);
        ("channel_voice1::ChannelPressure"%string,
         [("ump_type"%string, TyUnit); ("status"%string, TyUnit);
          ("channel"%string, TyU 4); ("group"%string, TyU 4);
          ("pressure"%string, TyU 7)]);
        ("channel_voice1::ControlChange"%string,
         [("ump_type"%string, TyUnit); ("status"%string, TyUnit);
          ("channel"%string, TyU 4); ("group"%string, TyU 4);
          ("control"%string, TyU 7); ("control_data"%string, TyU 7)]);
        ("channel_voice1::KeyPressure"%string,
         [("ump_type"%string, TyUnit); ("status"%string, TyUnit);
          ("channel"%string, TyU 4); ("group"%string, TyU 4);
          ("note_number"%string, TyU 7); ("pressure"%string, TyU 7)]);
        ("channel_voice1::NoteOff"%string,
         [("ump_type"%string, TyUnit); ("status"%string, TyUnit);
          ("channel"%string, TyU 4); ("group"%string, TyU 4);
          ("note_number"%string, TyU 7); ("velocity"%string, TyU 7)]);
        ("channel_voice1::NoteOn"%string,
         [("ump_type"%string, TyUnit); ("status"%string, TyUnit);
          ("channel"%string, TyU 4); ("group"%string, TyU 4);
          ("note_number"%string, TyU 7); ("velocity"%string, TyU 7)]);
        ("channel_voice1::PitchBend"%string,
         [("ump_type"%string, TyUnit); ("status"%string, TyUnit);
          ("channel"%string, TyU 4); ("group"%string, TyU 4);
          ("bend"%string, TyU 14)]);
        ("channel_voice1::ProgramChange"%string,
         [("ump_type"%string, TyUnit); ("status"%string, TyUnit);
          ("channel"%string, TyU 4); ("group"%string, TyU 4);
          ("program"%string, TyU 7)]);
        ("channel_voice2::AssignableController"%string,
         [("ump_type"%string, TyUnit); ("status"%string, TyUnit);
          ("channel"%string, TyU 4); ("group"%string, TyU 4);
          ("bank"%string, TyU 7); ("index"%string, TyU 7);
          ("controller_data"%string, TyU 32)]);
        ("channel_voice2::AssignablePerNoteController"%string,
         [("ump_type"%string, TyUnit); ("status"%string, TyUnit);
          ("channel"%string, TyU 4); ("group"%string, TyU 4);
          ("note_number"%string, TyU 7); ("index"%string, TyU 8);
          ("controller_data"%string, TyU 32)]);
        ("channel_voice2::ChannelPitchBend"%string,
         [("ump_type"%string, TyUnit); ("status"%string, TyUnit);
          ("channel"%string, TyU 4); ("group"%string, TyU 4);
          ("pitch_bend_data"%string, TyU 32)]);
        ("channel_voice2::ChannelPressure"%string,
         [("ump_type"%string, TyUnit); ("status"%string, TyUnit);
          ("channel"%string, TyU 4); ("group"%string, TyU 4);
          ("bank"%string, TyU 7); ("index"%string, TyU 7);
          ("channel_pressure_data"%string, TyU 32)]);
        ("channel_voice2::ControlChange"%string,
         [("ump_type"%string, TyUnit); ("status"%string, TyUnit);
          ("channel"%string, TyU 4); ("group"%string, TyU 4);
          ("control"%string, TyU 7); ("control_change_data"%string, TyU 32)]);
        ("channel_voice2::KeyPressure"%string,
         [("ump_type"%string, TyUnit); ("status"%string, TyUnit);
          ("channel"%string, TyU 4); ("group"%string, TyU 4);
          ("note_number"%string, TyU 7); ("key_pressure_data"%string, TyU 32)]);
        ("channel_voice2::NoteOff"%string,
         [("ump_type"%string, TyUnit); ("status"%string, TyUnit);
          ("channel"%string, TyU 4); ("group"%string, TyU 4);
          ("note_number"%string, TyU 7); ("velocity"%string, TyU 16);
          ("attribute"%string, TyAttr)]);
        ("channel_voice2::NoteOn"%string,
         [("ump_type"%string, TyUnit); ("status"%string, TyUnit);
          ("channel"%string, TyU 4); ("group"%string, TyU 4);
          ("note_number"%string, TyU 7); ("velocity"%string, TyU 16);
          ("attribute"%string, TyAttr)]);
        ("channel_voice2::PerNoteManagement"%string,
         [("ump_type"%string, TyUnit); ("status"%string, TyUnit);
          ("channel"%string, TyU 4); ("group"%string, TyU 4);
          ("note_number"%string, TyU 7); ("detach"%string, TyBool);
          ("reset"%string, TyBool)]);
        ("channel_voice2::PerNotePitchBend"%string,
         [("ump_type"%string, TyUnit); ("status"%string, TyUnit);
          ("channel"%string, TyU 4); ("group"%string, TyU 4);
          ("note_number"%string, TyU 7); ("pitch_bend_data"%string, TyU 32)]);
        ("channel_voice2::ProgramChange"%string,
         [("ump_type"%string, TyUnit); ("status"%string, TyUnit);
          ("channel"%string, TyU 4); ("group"%string, TyU 4);
          ("program"%string, TyU 7); ("bank"%string, TyOptU 14)]);
        ("channel_voice2::RegisteredController"%string,
         [("ump_type"%string, TyUnit); ("status"%string, TyUnit);
          ("channel"%string, TyU 4); ("group"%string, TyU 4);
          ("bank"%string, TyU 7); ("index"%string, TyU 7);
          ("controller_data"%string, TyU 32)]);
        ("channel_voice2::RegisteredPerNoteController"%string,
         [("ump_type"%string, TyUnit); ("status"%string, TyUnit);
          ("channel"%string, TyU 4); ("group"%string, TyU 4);
          ("note_number"%string, TyU 7); ("controller"%string, TyCtl)]);
        ("channel_voice2::RelativeAssignableController"%string,
         [("ump_type"%string, TyUnit); ("status"%string, TyUnit);
          ("channel"%string, TyU 4); ("group"%string, TyU 4);
          ("bank"%string, TyU 7); ("index"%string, TyU 7);
          ("controller_data"%string, TyU 32)]);
        ("channel_voice2::RelativeRegisteredController"%string,
         [("ump_type"%string, TyUnit); ("status"%string, TyUnit);
          ("channel"%string, TyU 4); ("group"%string, TyU 4);
          ("bank"%string, TyU 7); ("index"%string, TyU 7);
          ("controller_data"%string, TyU 32)]);
        ("flex_data::SetChordName"%string,
         [("ump_type"%string, TyUnit); ("group"%string, TyU 4);
          ("optional_channel"%string, TyOptU 4); (
          "format"%string, TyUnit); ("bank"%string, TyUnit);
          ("status"%string, TyUnit);
          ("tonic_sharps_flats"%string, TyChordSF);
          ("tonic"%string, TyTonic); ("chord_type"%string, TyChordType);
          ("chord_alteration1"%string, TyAlt);
          ("chord_alteration2"%string, TyAlt);
          ("chord_alteration3"%string, TyAlt);
          ("chord_alteration4"%string, TyAlt);
          ("bass_sharps_flats"%string, TyChordSF);
          ("bass_note"%string, TyTonic);
          ("bass_chord_type"%string, TyChordType);
          ("bass_alteration1"%string, TyAlt);
          ("bass_alteration2"%string, TyAlt)]);
        ("flex_data::SetKeySignature"%string,
         [("ump_type"%string, TyUnit); ("group"%string, TyU 4);
          ("optional_channel"%string, TyOptU 4); (
          "format"%string, TyUnit); ("bank"%string, TyUnit);
          ("status"%string, TyUnit); ("tonic"%string, TyTonic);
          ("sharps_flats"%string, TyKeySF)]);
        ("flex_data::SetMetronome"%string,
         [("ump_type"%string, TyUnit); ("group"%string, TyU 4);
          ("format"%string, TyUnit); ("bank"%string, TyUnit);
          ("status"%string, TyUnit); ("no_channel"%string, TyUnit);
          ("number_of_clocks_per_primary_click"%string, TyU 8);
          ("bar_accent1"%string, TyU 8); ("bar_accent2"%string, TyU 8);
          ("bar_accent3"%string, TyU 8);
          ("number_of_subdivision_clicks1"%string, TyU 8);
          ("number_of_subdivision_clicks2"%string, TyU 8)]);
        ("flex_data::SetTempo"%string,
         [("ump_type"%string, TyUnit); ("group"%string, TyU 4);
          ("format"%string, TyUnit); ("bank"%string, TyUnit);
          ("status"%string, TyUnit); ("no_channel"%string, TyUnit);
          ("number_of_10_nanosecond_units_per_quarter_note"%string, TyU 32)]);
        ("flex_data::SetTimeSignature"%string,
         [("ump_type"%string, TyUnit); ("group"%string, TyU 4);
          ("format"%string, TyUnit); ("bank"%string, TyUnit);
          ("status"%string, TyUnit); ("no_channel"%string, TyUnit);
          ("numerator"%string, TyU 8); ("denominator"%string, TyU 8);
          ("number_of_32nd_notes"%string, TyU 8)]);
        ("ump_stream::DeviceIdentity"%string,
         [("ump_type"%string, TyUnit); ("status"%string, TyUnit);
          ("consistent_formats"%string, TyUnit);
          ("device_manufacturer"%string, TyU7s 3);
          ("device_family"%string, TyU 14);
          ("device_family_model_number"%string, TyU 14);
          ("software_version"%string, TyU7s 4)]);
        ("ump_stream::EndOfClip"%string,
         [("ump_type"%string, TyUnit); ("status"%string, TyUnit);
          ("consistent_formats"%string, TyUnit)]);
        ("ump_stream::EndpointDiscovery"%string,
         [("ump_type"%string, TyUnit); ("status"%string, TyUnit);
          ("consistent_formats"%string, TyUnit);
          ("ump_version_major"%string, TyU 8);
          ("ump_version_minor"%string, TyU 8);
          ("request_endpoint_info"%string, TyBool);
          ("request_device_identity"%string, TyBool);
          ("request_endpoint_name"%string, TyBool);
          ("request_product_instance_id"%string, TyBool);
          ("request_stream_configuration"%string, TyBool)]);
        ("ump_stream::EndpointInfo"%string,
         [("ump_type"%string, TyUnit); ("status"%string, TyUnit);
          ("consistent_formats"%string, TyUnit);
          ("ump_version_major"%string, TyU 8);
          ("ump_version_minor"%string, TyU 8);
          ("static_function_blocks"%string, TyBool);
          ("supports_midi2_protocol"%string, TyBool);
          ("supports_midi1_protocol"%string, TyBool);
          ("supports_receiving_jr_timestamps"%string, TyBool);
          ("supports_sending_jr_timestamps"%string, TyBool);
          ("number_of_function_blocks"%string, TyU 7)]);
        ("ump_stream::FunctionBlockDiscovery"%string,
         [("ump_type"%string, TyUnit); ("status"%string, TyUnit);
          ("consistent_formats"%string, TyUnit);
          ("function_block_number"%string, TyU 8);
          ("requesting_function_block_info"%string, TyBool);
          ("requesting_function_block_name"%string, TyBool)]);
        ("ump_stream::FunctionBlockInfo"%string,
         [("ump_type"%string, TyUnit); ("status"%string, TyUnit);
          ("consistent_formats"%string, TyUnit); (
          "active"%string, TyBool); ("function_block_number"%string, TyU 7);
          ("first_group"%string, TyU 4);
          ("number_of_groups_spanned"%string, TyU 8);
          ("midi_ci_version"%string, TyU 8);
          ("max_number_of_midi_ci_streams"%string, TyU 8);
          ("ui_hint"%string, TyUiHint); ("midi1_port"%string, TyPort);
          ("direction"%string, TyDir)]);
        ("ump_stream::StartOfClip"%string,
         [("ump_type"%string, TyUnit); ("status"%string, TyUnit);
          ("consistent_formats"%string, TyUnit)]);
        ("ump_stream::StreamConfigurationNotification"%string,
         [("ump_type"%string, TyUnit); ("status"%string, TyUnit);
          ("consistent_formats"%string, TyUnit); (
          "protocol"%string, TyU 8);
          ("receive_jr_timestamps"%string, TyBool);
          ("send_jr_timestamps"%string, TyBool)]);
        ("ump_stream::StreamConfigurationRequest"%string,
         [("ump_type"%string, TyUnit); ("status"%string, TyUnit);
          ("consistent_formats"%string, TyUnit); (
          "protocol"%string, TyU 8);
          ("receive_jr_timestamps"%string, TyBool);
          ("send_jr_timestamps"%string, TyBool)])]
     : list (string * list (string * ty))
